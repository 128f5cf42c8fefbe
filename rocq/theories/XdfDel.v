(** c_xdfdel preserves the invariant and touches one entry. *)
From Coq Require Import ZArith List Lia Bool.
From Verif Require Import Bits Handles WaFile Xdf XdfLib XdfInv.
Import ListNotations.
Open Scope Z_scope.

Ltac hlen := repeat (rewrite hadd_length || rewrite hset_length); try assumption; unfold H_FSIZ, H_NRWR, H_NXTN, H_NBD, H_PLST, H_NBIG, H_PRM, H_AUX, H_NEFF, H_NREC, H_RWFLG in *; lia.
Ltac hs := repeat (first [rewrite hget_hadd by hlen | rewrite hget_hset by hlen]);
  repeat match goal with |- context [Nat.eqb ?a ?b] =>
    let v := eval vm_compute in (Nat.eqb a b) in
    match v with true => change (Nat.eqb a b) with true | false => change (Nat.eqb a b) with false end end; cbv iota.

Lemma h_lng_hset h k v : k <> 0%nat -> (k < length h)%nat -> h_lng (hset h k v) = h_lng h.
Proof. intros. unfold h_lng. rewrite hget_hset by assumption. destruct (Nat.eqb_spec 0 k); [lia|reflexivity]. Qed.
Lemma h_lprm_hset h k v : k <> H_PRM -> (k < length h)%nat -> h_lprm (hset h k v) = h_lprm h.
Proof. intros. unfold h_lprm. rewrite hget_hset by assumption. destruct (Nat.eqb_spec H_PRM k); [congruence|reflexivity]. Qed.

Definition del_file (f : fte) (k r : nat) (p : page) (e : list Z) : fte :=
  f_setmod (f_sethdr (f_setpages f (upd (f_pages f) k (p_setmod (p_setent p r (upd e 0 (mk_hd 254 (e_lng e)))) true)))
                     (hadd (hadd (f_hdr f) H_NEFF 1) H_NREC (-1))) true.

Lemma e_upd0 e t l : (0 < length e)%nat -> e_idtyp (upd e 0 (mk_hd t l)) = t mod 256 /\ e_lng (upd e 0 (mk_hd t l)) = l mod 2 ^ 24 /\ e_addr (upd e 0 (mk_hd t l)) = e_addr e.
Proof.
  intros. destruct e as [|a e]; [cbn in H; lia|]. unfold e_idtyp, e_lng, e_addr. cbn [upd nth].
  rewrite hd_idtyp, hd_lng. auto.
Qed.

Lemma e_lng_mod e : e_lng e mod 2 ^ 24 = e_lng e.
Proof. apply Z.mod_small. apply w_lng_range. Qed.

Lemma ext_upd_entry ns f k r p p' e e' h' :
  nth_error (f_pages f) k = Some p -> p_ents p' = upd (p_ents p) r e' -> p_addr p' = p_addr p ->
  entry_at ns (f_pages f) k r = Some e -> e_lng e' = e_lng e -> e_addr e' = e_addr e ->
  length h' = length (f_hdr f) ->
  forall o, ext ns (f_sethdr (f_setpages f (upd (f_pages f) k p')) h') o = ext ns f o.
Proof.
  intros P E A G L AD H o. destruct o as [|j|j s]; cbn [ext f_hdr f_sethdr f_pages f_setpages f_plen].
  - rewrite H. reflexivity.
  - rewrite upd_nth. destruct (Nat.eqb_spec j k) as [->|]; cbn [andb]; [|reflexivity].
    destruct (k <? length (f_pages f))%nat; [|reflexivity]. rewrite P. cbn [option_map]. rewrite A. reflexivity.
  - rewrite (entry_at_upd ns _ k r p p' e' P E). destruct (Nat.eqb_spec j k) as [->|]; cbn [andb]; [|reflexivity].
    destruct (Nat.eqb_spec s r) as [->|]; [|reflexivity]. rewrite G. cbn [option_map]. rewrite L, AD. reflexivity.
Qed.

Lemma del_ginv ns f k r p e : ginv ns f -> nth_error (f_pages f) k = Some p ->
  entry_at ns (f_pages f) k r = Some e -> live e = true -> ginv ns (del_file f k r p e).
Proof.
  intros G P E L.
  set (e' := upd e 0 (mk_hd 254 (e_lng e))). set (p' := p_setmod (p_setent p r e') true).
  pose proof (g_hlen16 _ _ G) as H16. destruct (entry_shape _ _ _ _ _ G E) as [EL EW].
  pose proof (g_plen _ _ G) as PL.
  destruct (e_upd0 e 254 (e_lng e) ltac:(lia)) as (T1 & T2 & T3). fold e' in T1, T2, T3. rewrite e_lng_mod in T2. change (254 mod 256) with 254 in T1.
  assert (PE : p_ents p' = upd (p_ents p) r e') by reflexivity.
  assert (X : forall o, ext ns (del_file f k r p e) o = ext ns f o).
  { intros o. apply (ext_upd_entry ns f k r p p' e e'); auto. rewrite !hadd_length. reflexivity. }
  destruct (used_upd ns _ k r e p E P) as (A & B & U & U'). specialize (U' p' e' PE).
  pose proof (g_ents _ _ G _ _ _ E) as (EO & LO & AO).
  constructor; cbn [del_file f_setmod f_sethdr f_setpages f_kp f_link f_tail f_plen f_hdr f_pages f_nxtadr f_disk f_modified];
    fold e'; fold p'; rewrite ?upd_length.
  - apply (g_kp _ _ G).
  - apply (g_link _ _ G).
  - apply (g_tail _ _ G).
  - assumption.
  - rewrite !hadd_length. unfold hadd. rewrite !h_lng_hset by (unfold H_NEFF, H_NREC; try rewrite hset_length; lia). apply (g_hlen _ _ G).
  - rewrite !hadd_length. lia.
  - apply hadd_words, hadd_words, (g_hw _ _ G).
  - unfold hadd. rewrite !h_lprm_hset by (unfold H_NEFF, H_NREC, H_PRM; try rewrite hset_length; lia). apply (g_lprm _ _ G).
  - apply (g_np _ _ G).
  - hs. apply (g_nbd _ _ G).
  - apply Forall_upd; [apply (g_pages _ _ G)|]. apply page_ok_setmod, page_ok_setent; [apply (page_nth_ok _ _ _ _ G P)| |].
    + unfold e'. rewrite upd_length. exact EL.
    + apply upd_words; [exact EW|apply hd_word].
  - apply (g_ns _ _ G).
  - apply (g_nsb _ _ G).
  - hs. apply (g_nxt _ _ G).
  - hs. apply (g_size _ _ G).
  - hs. apply (g_small _ _ G).
  - intros o s l. rewrite X. hs. apply (g_in _ _ G).
  - intros o o' x x'. rewrite !X. apply (g_apart _ _ G).
  - intros j s x. rewrite (entry_at_upd ns _ k r p p' e' P PE). destruct (Nat.eqb j k && Nat.eqb s r).
    + rewrite E. intros Q. injection Q as <-. unfold entry_ok. rewrite T1, T2, T3. auto.
    + apply (g_ents _ _ G).
  - hs. rewrite (g_nrec _ _ G), U, U'. rewrite !count_app, !count_cons. rewrite L.
    replace (live e') with false by (unfold live; rewrite T1; reflexivity).
    rewrite w32_id; [lia|]. pose proof (count_le live A). pose proof (count_le live B).
    pose proof (ginv_used_le _ _ G) as UL. rewrite U, app_length in UL. cbn [length] in UL. unfold word_ok. lia.
  - hs. rewrite (g_nxtn _ _ G), U, U'. rewrite !app_length. reflexivity.
  - intros q. rewrite upd_nth. unfold hadd. rewrite !h_lng_hset by (unfold H_NEFF, H_NREC; try rewrite hset_length; lia).
    destruct (Nat.eqb_spec 0 k) as [<-|]; cbn [andb]; [|apply (g_first _ _ G)].
    destruct (0 <? length (f_pages f))%nat; [|apply (g_first _ _ G)]. intros Q. injection Q as <-. apply (g_first _ _ G p P).
  - intros j a b. rewrite !upd_nth. intros Qa Qb.
    assert (K : (k <? length (f_pages f))%nat = true). { apply Nat.ltb_lt. apply nth_error_Some. congruence. }
    rewrite K, andb_true_r in Qa, Qb.
    assert (exists a0, nth_error (f_pages f) j = Some a0 /\ p_nxt a = p_nxt a0) as (a0 & Ha & Na).
    { destruct (Nat.eqb_spec j k) as [->|]; [injection Qa as <-; exists p; auto|exists a; auto]. }
    assert (exists b0, nth_error (f_pages f) (S j) = Some b0 /\ p_addr b = p_addr b0) as (b0 & Hb & Nb).
    { destruct (Nat.eqb_spec (S j) k) as [<-|]; [injection Qb as <-; exists p; auto|exists b; auto]. }
    rewrite Na, Nb. apply (g_chain _ _ G j); assumption.
  - intros q. rewrite upd_nth.
    destruct (Nat.eqb_spec (length (f_pages f) - 1) k) as [Q|]; cbn [andb]; [|apply (g_lastp _ _ G)].
    destruct (k <? length (f_pages f))%nat; [|apply (g_lastp _ _ G)]. intros R. injection R as <-.
    apply (g_lastp _ _ G p). rewrite Q. exact P.
  - pose proof (g_tile _ _ G) as T. constructor.
    + intros x Hx. cbn [del_file f_setmod f_sethdr f_hdr] in Hx. revert Hx. hs. intros Hx. destruct (t_cover _ _ T x Hx) as (o & s & l & O & IN). exists o, s, l. rewrite X. auto.
    + cbn [del_file f_setmod f_sethdr f_hdr]. hs. apply (t_hdr _ _ T).
    + cbn [del_file f_setmod f_sethdr f_setpages f_pages f_plen]. apply Forall_upd; [apply (t_page _ _ T)|]. apply (tile_page _ _ _ _ T P).
    + cbn [del_file f_setmod f_sethdr f_setpages f_pages f_disk f_modified]. fold e'. fold p'. intros j s x q. rewrite (entry_at_upd ns _ k r p p' e' P PE).
      rewrite upd_nth. replace (k <? length (f_pages f))%nat with true by (symmetry; apply Nat.ltb_lt; apply nth_error_Some; congruence). rewrite andb_true_r.
      destruct (Nat.eqb_spec j k) as [->|J]; cbn [andb].
      * intros EX Q. injection Q as <-. destruct (Nat.eqb s r).
        -- rewrite E in EX. injection EX as <-. split; [|auto]. apply rhd_del; [lia|]. apply (t_rec _ _ T _ _ _ _ E P).
        -- split; [apply (t_rec _ _ T _ _ _ _ EX P)|auto].
      * intros EX Q. destruct (t_rec _ _ T _ _ _ _ EX Q) as [R1 R2]. split; [exact R1|]. intros H. split; [apply R2; exact H|reflexivity].
Qed.

Lemma del_gimg sk f k r p e : gimg sk f -> nth_error (f_pages f) k = Some p -> gimg sk (del_file f k r p e).
Proof.
  intros G P j q Hj S M. destruct M as [M|M]; [|discriminate].
  cbn [del_file f_setmod f_sethdr f_setpages f_pages] in Hj.
  rewrite upd_nth in Hj. destruct (Nat.eqb_spec j k) as [->|]; cbn [andb] in Hj.
  - destruct (k <? length (f_pages f))%nat eqn:Q; [injection Hj as <-; discriminate|].
    apply Nat.ltb_ge in Q. apply nth_error_None in Q. congruence.
  - apply (G j q Hj S). left. exact M.
Qed.

(** * World level *)
Definition others (w w' : world) (i : nat) : Prop := w_seq w' = w_seq w /\ forall j, j <> i -> w_file w' j = w_file w j.

Lemma setf_same w i f : w_file (setf w i f) i = f.
Proof. unfold setf. cbn. rewrite Nat.eqb_refl. reflexivity. Qed.
Lemma setf_other w i f j : j <> i -> w_file (setf w i f) j = w_file w j.
Proof. intros. unfold setf. cbn. replace (Nat.eqb j i) with false by (symmetry; apply Nat.eqb_neq; assumption). reflexivity. Qed.
Lemma others_setf w w' i f : others w w' i -> others w (setf w' i f) i.
Proof. intros [A B]. split; [exact A|]. intros j J. rewrite setf_other by assumption. auto. Qed.
Lemma others_refl w i : others w w i.
Proof. split; auto. Qed.

Definition locate_own ns w i f pn : ginv ns f ->
  locate w i f pn = if (pn <? length (f_pages f))%nat then Some (Go (i, pn)) else Some (Err ERR_BAD_PAGENO).
Proof. intros G. unfold locate. rewrite (g_link _ _ G). reflexivity. Qed.

Lemma get_page_own w i f k : w_file w i = Some f -> get_page w (i, k) = nth_error (f_pages f) k.
Proof. intros H. unfold get_page. cbn [fst snd]. rewrite H. reflexivity. Qed.

Lemma entry_of_own w i f k p r : w_file w i = Some f -> nth_error (f_pages f) k = Some p ->
  entry_of w f (i, k) r = if p_nent p <? Z.of_nat r then Some (Err ERR_BAD_HNDL)
                          else match nth_error (p_ents p) r with Some e => Some (Go e) | None => None end.
Proof.
  intros H P. unfold entry_of. rewrite (get_page_own _ _ _ _ H), P. cbn [bind fst]. rewrite H. cbn [bind].
  destruct (p_nent p <? Z.of_nat r); [reflexivity|]. rewrite Nat.eqb_refl. cbn [negb].
  destruct (nth_error (p_ents p) r); reflexivity.
Qed.

Lemma live_facts e : live e = true -> e_idtyp e =? 0 = false /\ deleted (e_idtyp e) = false.
Proof.
  unfold live. intros H. apply andb_prop in H. destruct H as [A B]. apply Z.leb_le in A, B.
  split; [apply Z.eqb_neq; lia|]. unfold deleted. apply Z.eqb_neq. intros C.
  assert (D : forallb (fun t => (t <? 126) && negb (Z.land t 126 =? 126) || (125 <? t)) (map Z.of_nat (seq 0 126)) = true) by (vm_compute; reflexivity).
  rewrite forallb_forall in D. specialize (D (e_idtyp e)). rewrite C in D.
  assert (I : In (e_idtyp e) (map Z.of_nat (seq 0 126))).
  { apply in_map_iff. exists (Z.to_nat (e_idtyp e)). split; [lia|]. apply in_seq. lia. }
  specialize (D I). cbn [Z.eqb Pos.eqb negb] in D. rewrite andb_false_r in D. cbn [orb] in D. apply Z.ltb_lt in D. lia.
Qed.

Lemma xdfdel_eff ns w i f h p e : w_file w i = Some f -> ginv ns f -> hidx w h = i ->
  nth_error (f_pages f) (hpage h) = Some p -> Z.of_nat (hrec h) <= p_nent p ->
  entry_at ns (f_pages f) (hpage h) (hrec h) = Some e -> live e = true ->
  hget (f_hdr f) H_RWFLG <> RDMODE -> hget (f_hdr f) H_RWFLG <> APPEND -> f_ro f = false ->
  exists w', xdfdel w h = Some (0, w') /\ others w w' i /\ w_file w' i = Some (del_file f (hpage h) (hrec h) p e).
Proof.
  intros F G I P N E L R1 R2 RO. unfold xdfdel. rewrite I, F.
  replace (hget (f_hdr f) H_RWFLG =? RDMODE) with false by (symmetry; apply Z.eqb_neq; assumption).
  replace (hget (f_hdr f) H_RWFLG =? APPEND) with false by (symmetry; apply Z.eqb_neq; assumption). cbn [orb].
  rewrite RO. rewrite (locate_own ns) by assumption.
  replace (hpage h <? length (f_pages f))%nat with true by (symmetry; apply Nat.ltb_lt; apply nth_error_Some; congruence).
  rewrite (entry_of_own _ _ _ _ _ _ F P).
  replace (p_nent p <? Z.of_nat (hrec h)) with false by (symmetry; apply Z.ltb_ge; assumption).
  destruct (entry_at_page _ _ _ _ _ E) as (n & p0 & _ & P0 & _ & E0). rewrite P in P0. injection P0 as <-.
  rewrite E0. destruct (live_facts e L) as [-> ->].
  rewrite (get_page_own _ _ _ _ F), P. cbn [bind]. unfold set_page. cbn [fst snd]. rewrite F. rewrite setf_same. cbn [bind].
  eexists. split; [reflexivity|]. split; [apply others_setf, others_setf, others_refl|]. rewrite setf_same. reflexivity.
Qed.
