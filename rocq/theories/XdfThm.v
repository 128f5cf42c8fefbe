(** From the effect of one call to histories. *)
From Coq Require Import ZArith List Lia Bool.
From Verif Require Import Bits Handles HandlesFacts WaFile Xdf XdfLib XdfInv XdfDel XdfPut XdfPut2 XdfPut3 XdfPut4 XdfOpen XdfClose XdfClose2 XdfReopen XdfCreate XdfSearch XdfAbs XdfCkpt XdfLoc XdfHist XdfSys XdfSys2 XdfSpec.
Import ListNotations.
Open Scope Z_scope.

Lemma hist_wf A s l s' : hist A s l s' -> wf s -> wf s'.
Proof. induction 1; intros W; [exact W|]. apply IHhist. apply (step_spec _ _ _ _ W H H1). Qed.
Lemma reach_wf s : reach s -> wf s.
Proof. intros (l & R). eapply hist_wf; [exact R|apply init_wf]. Qed.
Lemma hist_any A s l s' : hist A s l s' -> hist any s l s'.
Proof. induction 1; [constructor|]. econstructor; eauto. exact Logic.I. Qed.
Lemma hist_app A s l s' l' s'' : hist A s l s' -> hist A s' l' s'' -> hist A s (l ++ l') s''.
Proof. induction 1; intros R; [exact R|]. cbn [app]. econstructor; eauto. Qed.
Lemma reach_hist A s l s' : reach s -> hist A s l s' -> reach s'.
Proof. intros (l0 & R) R'. exists (l0 ++ l). eapply hist_app; [exact R|eapply hist_any; exact R']. Qed.
Lemma hist_weaken (A B : sys -> op -> Prop) s l s' : (forall s o, A s o -> B s o) -> hist A s l s' -> hist B s l s'.
Proof. intros I. induction 1; [constructor|]. econstructor; eauto. Qed.

(** * Frame *)
Lemma step_frame s o c s1 p k r x : wf s -> ok_op s o -> step o s = Some (c, s1) -> spares p k r s o ->
  sabs s p k r = Some x -> sabs s1 p k r = Some x.
Proof.
  intros W OK ST SP X. destruct (step_spec _ _ _ _ W OK ST) as [_ E]. unfold spares in SP. destruct o; cbn [effect touches] in *; try (rewrite E; exact X).
  - destruct (c =? 0); [|subst; exact X]. rewrite E. destruct (Nat.eqb_spec p p0); [subst; tauto|exact X].
  - destruct (c =? 0); [|rewrite E; exact X].
    destruct E as (q & i & f & k0 & r0 & e & ws & Q & FX & F & WB & AP & _ & _ & WH & TG & EQ). rewrite EQ.
    destruct (Nat.eqb_spec p q) as [->|]; [|exact X].
    assert (ND : put_tgt handle <> Some (k, r)).
    { intros T. unfold put_tgt in T. destruct (Z.eqb_spec handle 0) as [|N]; [discriminate|]. assert (hpage (Z.abs handle) = k /\ hrec (Z.abs handle) = r) as [T1 T2] by (split; congruence).
      apply SP. split; [exact N|]. split; [rewrite (proj2 (AP N)); exact Q|auto]. }
    destruct (eq2_spec k r k0 r0) as [K|K].
    + exfalso. assert (k0 = k /\ r0 = r) as [-> ->] by (split; congruence). destruct WH as [WH|(_ & T & _)]; [congruence|contradiction].
    + destruct (put_tgt handle) as [[a b]|]; cbn [is_tgt]; [|exact X]. destruct (eq2_spec k r a b) as [T|]; [|exact X]. exfalso. apply ND. congruence.
  - destruct (c =? 0); [|subst; exact X]. destruct E as (q & f & Q & F & _ & _ & EQ). rewrite EQ.
    destruct (Nat.eqb_spec p q) as [->|]; [|exact X]. cbn [andb]. destruct (eq2_spec k r (hpage h) (hrec h)) as [T|]; [|exact X].
    exfalso. apply SP. assert (hpage h = k /\ hrec h = r) as [T1 T2] by (split; congruence). split; auto.
Qed.

Lemma hist_frame s l s' p k r x : wf s -> hist (spares p k r) s l s' -> sabs s p k r = Some x -> sabs s' p k r = Some x.
Proof.
  intros W H. revert W. induction H; intros W X; [exact X|]. apply IHhist; [apply (step_spec _ _ _ _ W H H1)|]. eapply step_frame; eassumption.
Qed.

(** Deleted records stay deleted. *)
Lemma step_dead s o c s1 p k r : wf s -> ok_op s o -> step o s = Some (c, s1) -> keeps_file p s o ->
  sabs s p k r = Some None -> sabs s1 p k r = Some None.
Proof.
  intros W OK ST KF X. destruct (step_spec _ _ _ _ W OK ST) as [_ E]. unfold keeps_file in KF. destruct o; cbn [effect] in *; try (rewrite E; exact X).
  - destruct (c =? 0); [|subst; exact X]. rewrite E. destruct (Nat.eqb_spec p p0); [subst; tauto|exact X].
  - destruct (c =? 0); [|rewrite E; exact X].
    destruct E as (q & i & f & k0 & r0 & e & ws & Q & FX & F & WB & AP & _ & _ & WH & TG & EQ). rewrite EQ.
    destruct (Nat.eqb_spec p q) as [->|]; [|exact X].
    destruct (eq2_spec k r k0 r0) as [K|K].
    + exfalso. assert (k0 = k /\ r0 = r) as [-> ->] by (split; congruence). destruct WH as [WH|(_ & T & e0 & ws0 & T2 & _)]; congruence.
    + destruct (is_tgt (put_tgt handle) k r); [reflexivity|exact X].
  - destruct (c =? 0); [|subst; exact X]. destruct E as (q & f & Q & F & _ & _ & EQ). rewrite EQ.
    destruct (_ && _); [reflexivity|exact X].
Qed.

Lemma hist_dead s l s' p k r : wf s -> hist (keeps_file p) s l s' -> sabs s p k r = Some None -> sabs s' p k r = Some None.
Proof.
  intros W H. revert W. induction H; intros W X; [exact X|]. apply IHhist; [apply (step_spec _ _ _ _ W H H1)|]. eapply step_dead; eassumption.
Qed.

(** * Handles *)
Lemma ent_bounds f k r e : finv f -> ent f k r = Some e -> (k < 1024)%nat /\ (r < 256)%nat.
Proof.
  intros [G I] E. destruct (ent_inv _ _ _ _ E) as (p & P & R & _). pose proof (nent_bound _ _ _ G P). assert (k < length (f_pages f))%nat by (apply nth_error_Some; congruence).
  pose proof (g_np _ _ G). unfold MAX_DIR_PAGES in *. lia.
Qed.

Lemma rec_handle_dec w i k r : w_seq w = false -> (i < MAX_XDF_FILES)%nat -> (k < 1024)%nat -> (r < 512)%nat ->
  hidx w (rec_handle i k r) = i /\ hpage (rec_handle i k r) = k /\ hrec (rec_handle i k r) = r /\ 0 <= rec_handle i k r < 2 ^ 31.
Proof.
  intros SQ I K R. unfold MAX_XDF_FILES in I. unfold hidx, hpage, hrec, rec_handle. rewrite SQ.
  rewrite rnd_index_any, rnd_page, rnd_record by lia. rewrite !Nat2Z.id. repeat split; try apply rnd_range; lia.
Qed.

Lemma rec_handle_ent s p i f k r e : wf s -> s_fs s p = Opened i -> w_file (s_w s) i = Some f -> ent f k r = Some e ->
  hidx (s_w s) (rec_handle i k r) = i /\ hpage (rec_handle i k r) = k /\ hrec (rec_handle i k r) = r /\ 0 <= rec_handle i k r < 2 ^ 31.
Proof.
  intros W P F E. destruct (ent_bounds _ _ _ _ (fo_inv _ (wf_fok _ W i f F)) E). apply rec_handle_dec; [apply (wf_seq _ W)|apply (wf_rng _ W i f F)|lia|lia].
Qed.

Lemma has_entry_ent s p i k r : wf s -> has_entry s p i k r -> exists f e, w_file (s_w s) i = Some f /\ ent f k r = Some e /\ sabs s p k r = abs f k r.
Proof.
  intros W (P & f & pg & F & K & R). pose proof (wf_fok _ W i f F) as FK. pose proof (fo_inv _ FK) as FI.
  assert (N : Z.of_nat r <> p_nent pg) by lia. pose proof (abs_page f k r pg FI K N) as A. rewrite (proj2 (Z.ltb_ge _ _)) in A by lia.
  destruct A as (e & _ & E). exists f, e. split; [exact F|]. split; [exact E|]. rewrite (sabs_open _ _ _ _ P F). reflexivity.
Qed.

Lemma sabs_entry s p i k r x : wf s -> s_fs s p = Opened i -> sabs s p k r = Some x -> exists f e, w_file (s_w s) i = Some f /\ ent f k r = Some e /\ has_entry s p i k r.
Proof.
  intros W P X. destruct (wf_open _ W p i P) as (f & F). rewrite (sabs_open _ _ _ _ P F) in X. unfold abs in X. destruct (ent f k r) as [e|] eqn:E; [|discriminate].
  exists f, e. split; [exact F|]. split; [exact E|]. destruct (ent_inv _ _ _ _ E) as (pg & K & R & _). split; [exact P|]. exists f, pg. split; [exact F|]. split; [exact K|].
  destruct (page_nth_ok _ _ _ _ (proj1 (fo_inv _ (wf_fok _ W i f F))) K) as (_ & HW & _). lia.
Qed.

Lemma rec_data_len f k r e : finv f -> ent f k r = Some e -> Z.of_nat (length (rec_data f e)) = 2 * e_lng e /\ Z.of_nat (length (rec_data f e)) < 2 ^ 26.
Proof.
  intros [G I] E. destruct (rec_ext_bound _ _ _ _ _ G E) as (X1 & X2 & X3). pose proof (g_size _ _ G) as SZ. fold (fsize f) in SZ. unfold dsize in SZ.
  unfold rec_data, range. rewrite firstn_length, skipn_length. pose proof (w_lng_range (nth 0 e 0)). fold (e_lng e) in *. lia.
Qed.

Lemma reads_live s p i k r e ws : wf s -> s_fs s p = Opened i -> sabs s p k r = Some (Some (e, ws)) -> reads (s_w s) (rec_handle i k r) ws.
Proof.
  intros W P X. destruct (sabs_entry _ _ _ _ _ _ W P X) as (f & e' & F & E & _). rewrite (sabs_open _ _ _ _ P F) in X.
  pose proof (fo_inv _ (wf_fok _ W i f F)) as FI. destruct (rec_handle_ent _ _ _ _ _ _ _ W P F E) as (H1 & H2 & H3 & _).
  split. { apply abs_live in X. destruct X as (X1 & _ & <-). apply (rec_data_len _ _ _ _ FI X1). }
  intros buf T. destruct (xdfget_live (s_w s) (rec_handle i k r) f e ws buf) as (b & G & B1 & B2 & B3); [rewrite H1; exact F|exact FI|rewrite H2, H3; exact X|exact T|].
  exists b. split; [exact G|]. split; [exact B2|]. rewrite <- B3. rewrite <- B1 at 1. rewrite B1 at 1. rewrite <- (firstn_skipn (length ws) (b_data b)) at 1. f_equal. exact B1.
Qed.

(** A buffer to read with. *)
Definition a_buffer (n : nat) : buffer := mkbuf (Z.of_nat n) 0 0 0 0 0 (repeat 0 n).
Lemma a_buffer_takes n : Z.of_nat n < 2 ^ 26 -> takes (a_buffer n) n.
Proof.
  intros. unfold takes, a_buffer. cbn [b_nwords b_data]. rewrite repeat_length. unfold s32. rewrite (proj2 (Z.ltb_lt _ _)) by lia. lia.
Qed.

Lemma reads_inv s p i k r ws : wf s -> has_entry s p i k r -> reads (s_w s) (rec_handle i k r) ws -> exists e, sabs s p k r = Some (Some (e, ws)).
Proof.
  intros W HE (LB & RD). destruct (has_entry_ent _ _ _ _ _ W HE) as (f & e & F & E & A). destruct HE as [P _]. rewrite A.
  pose proof (fo_inv _ (wf_fok _ W i f F)) as FI. destruct (rec_handle_ent _ _ _ _ _ _ _ W P F E) as (H1 & H2 & H3 & _).
  assert (RH : real_handle f (rec_handle i k r)).
  { intros pg. rewrite H2, H3. intros K. destruct (ent_inv _ _ _ _ E) as (pg' & K' & R & _). rewrite K in K'. injection K' as <-. 
    destruct (page_nth_ok _ _ _ _ (proj1 FI) K) as (_ & HW & _). lia. }
  destruct (live e) eqn:L.
  - assert (X : abs f k r = Some (Some (e, rec_data f e))) by (apply abs_live; auto). rewrite X.
    set (n := Nat.max (length ws) (length (rec_data f e))).
    destruct (rec_data_len _ _ _ _ FI E) as [_ LD]. assert (NB : Z.of_nat n < 2 ^ 26) by (unfold n; lia).
    assert (T1 : takes (a_buffer n) (length ws)) by (pose proof (a_buffer_takes n NB) as (? & ? & ?); unfold takes; lia).
    assert (T2 : takes (a_buffer n) (length (rec_data f e))) by (pose proof (a_buffer_takes n NB) as (? & ? & ?); unfold takes; lia).
    destruct (RD _ T1) as (b & GB & B1 & B2).
    destruct (xdfget_live (s_w s) (rec_handle i k r) f e (rec_data f e) (a_buffer n)) as (b' & G & C1 & C2 & C3); [rewrite H1; exact F|exact FI|rewrite H2, H3; exact X|exact T2|].
    rewrite G in GB. injection GB as ->. assert (LE : length ws = length (rec_data f e)) by lia.
    exists e. do 3 f_equal. rewrite <- C1, B2, <- LE, firstn_app, Nat.sub_diag, firstn_all, app_nil_r. reflexivity.
  - exfalso. assert (X : abs f k r = Some None) by (apply abs_dead; eauto).
    destruct (RD _ (a_buffer_takes _ LB)) as (b & GB & _).
    assert (GC : get_code f (hpage (rec_handle i k r)) (hrec (rec_handle i k r)) = ERR_DELETED).
    { rewrite H2, H3. unfold get_code. rewrite X. destruct (ent_inv _ _ _ _ E) as (pg & K & _). assert (k < length (f_pages f))%nat by (apply nth_error_Some; congruence).
      rewrite (proj2 (Nat.leb_gt _ _)) by lia. reflexivity. }
    rewrite (xdfget_dead (s_w s) (rec_handle i k r) f) in GB; [|rewrite H1; exact F|exact FI|exact RH|rewrite GC; discriminate].
    rewrite GC in GB. discriminate.
Qed.

Lemma real_entry f i k r e w : finv f -> w_seq w = false -> (i < MAX_XDF_FILES)%nat -> ent f k r = Some e -> real_handle f (rec_handle i k r).
Proof.
  intros FI SQ I E pg. destruct (ent_bounds _ _ _ _ FI E). destruct (rec_handle_dec w i k r) as (_ & H2 & H3 & _); [exact SQ|exact I|lia|lia|].
  rewrite H2, H3. intros K. destruct (ent_inv _ _ _ _ E) as (pg' & K' & R & _). rewrite K in K'. injection K' as <-.
  destruct (page_nth_ok _ _ _ _ (proj1 FI) K) as (_ & HW & _). lia.
Qed.

Lemma dead_get s p i k r buf : wf s -> s_fs s p = Opened i -> sabs s p k r = Some None -> xdfget (s_w s) (rec_handle i k r) buf = Some (ERR_DELETED, buf).
Proof.
  intros W P X. destruct (sabs_entry _ _ _ _ _ _ W P X) as (f & e & F & E & _). rewrite (sabs_open _ _ _ _ P F) in X.
  pose proof (fo_inv _ (wf_fok _ W i f F)) as FI. destruct (rec_handle_ent _ _ _ _ _ _ _ W P F E) as (H1 & H2 & H3 & _).
  assert (GC : get_code f (hpage (rec_handle i k r)) (hrec (rec_handle i k r)) = ERR_DELETED).
  { rewrite H2, H3. unfold get_code. rewrite X. destruct (ent_inv _ _ _ _ E) as (pg & K & _). assert (k < length (f_pages f))%nat by (apply nth_error_Some; congruence).
    rewrite (proj2 (Nat.leb_gt _ _)) by lia. reflexivity. }
  rewrite (xdfget_dead (s_w s) (rec_handle i k r) f); [rewrite GC; reflexivity|rewrite H1; exact F|exact FI| |rewrite GC; discriminate].
  eapply real_entry; try eassumption; [apply (wf_seq _ W)|apply (wf_rng _ W i f F)].
Qed.

Lemma dead_del s p i k r : wf s -> s_fs s p = Opened i -> sabs s p k r = Some None -> exists c, c < 0 /\ step (OpDel (rec_handle i k r)) s = Some (c, s).
Proof.
  intros W P X. destruct (sabs_entry _ _ _ _ _ _ W P X) as (f & e & F & E & _). rewrite (sabs_open _ _ _ _ P F) in X.
  pose proof (fo_inv _ (wf_fok _ W i f F)) as FI. destruct (rec_handle_ent _ _ _ _ _ _ _ W P F E) as (H1 & H2 & H3 & _).
  destruct (xdfdel_spec (s_w s) (rec_handle i k r) f) as (w' & D & EF); [rewrite H1; exact F|exact FI| |].
  { eapply real_entry; try eassumption; [apply (wf_seq _ W)|apply (wf_rng _ W i f F)]. }
  cbn [step]. rewrite D. cbn [bind]. exists (del_code f (hpage (rec_handle i k r)) (hrec (rec_handle i k r))).
  assert (NG : del_code f (hpage (rec_handle i k r)) (hrec (rec_handle i k r)) < 0).
  { rewrite H2, H3. unfold del_code. rewrite X. destruct (no_del f); [reflexivity|]. destruct (_ <=? _)%nat; reflexivity. }
  split; [exact NG|]. rewrite (proj2 (Z.eqb_neq _ _)) in EF by lia. subst w'. destruct s. reflexivity.
Qed.
