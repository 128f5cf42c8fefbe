(** c_xdfput as a whole, continued. *)
From Coq Require Import ZArith List Lia Bool.
From Verif Require Import Bits Handles WaFile Xdf XdfLib XdfInv XdfDel XdfPut XdfPut2.
Import ListNotations.
Open Scope Z_scope.

(** Used directory entry [r] of page [k]. *)
Definition ent (f : fte) (k r : nat) : option (list Z) := entry_at (nents (f_pages f)) (f_pages f) k r.

(** The words written for a record: the buffer with its two header words. *)
Definition stamped (data : list Z) (addr nwords : Z) : list Z :=
  upd (upd data 1 (w32 addr)) 0 (mk_hd (w_idtyp (nth 0 data 0)) (nwords / 2)).

Lemma stamped_length d a n : length (stamped d a n) = length d.
Proof. unfold stamped. rewrite !upd_length. reflexivity. Qed.

Definition keyed (f : fte) (e e1 data : list Z) (addr nwords : Z) : Prop :=
  exists ks em, kp_read (f_kp f) (f_hdr f) (stamped data addr nwords) = Some ks /\
    kp_write (f_kp f) (f_hdr f) e (ks ++ repeat 0 (MAX_PRIMARY_LNG - length ks)) (repeat 0 MAX_PRIMARY_LNG) (repeat 0 MAX_PRIMARY_LNG) = Some em /\
    e1 = upd (upd (fst em) 1 (w32 addr)) 0 (mk_hd (w_idtyp (nth 0 data 0)) (nwords / 2)).

(** The key functions are defined on this buffer. *)
Definition kp_fits (f : fte) (data : list Z) : Prop :=
  forall hd d e, hkeep (f_hdr f) hd -> length d = length data -> length e = (2 * f_plen f)%nat ->
  exists ks em, kp_read (f_kp f) hd d = Some ks /\
    kp_write (f_kp f) hd e (ks ++ repeat 0 (MAX_PRIMARY_LNG - length ks)) (repeat 0 MAX_PRIMARY_LNG) (repeat 0 MAX_PRIMARY_LNG) = Some em.

Lemma put_record_eff ns junk w i f k r p e rw te waddr nwords buf :
  w_file w i = Some f -> ginv ns f -> f_ro f = false -> c_ent (f_cur f) = Some ((i, k), r) ->
  nth_error (f_pages f) k = Some p -> nth_error (p_ents p) r = Some e ->
  1 <= waddr <= dsize (f_disk f) + 1 -> (2 <= length (b_data buf))%nat -> nwords <= Z.of_nat (length (b_data buf)) ->
  2 <= nwords < 2 ^ 25 -> all_words (b_data buf) ->
  word_ok ((waddr - 1) / 2 + 1) ->
  match put_record junk w i rw te waddr nwords buf with
  | None => ~ kp_fits f (b_data buf)
  | Some (c, w', buf') => c = 0 /\ others w w' i /\ exists e1,
      w_file w' i = Some (rec_file f k r p e1 rw te waddr nwords (firstn (Z.to_nat nwords) (stamped (b_data buf) ((waddr - 1) / 2 + 1) nwords))) /\
      entry_for e e1 (w_idtyp (nth 0 (b_data buf) 0)) (nwords / 2) ((waddr - 1) / 2 + 1) /\
      keyed f e e1 (b_data buf) ((waddr - 1) / 2 + 1) nwords /\ b_data buf' = stamped (b_data buf) ((waddr - 1) / 2 + 1) nwords
  end.
Proof.
  intros F G RO CE P E WA L2 LN NW AW AD. unfold put_record. rewrite F. cbn [bind].
  assert (B0 : nth_error (b_data buf) 0 = Some (nth 0 (b_data buf) 0)).
  { destruct (b_data buf); [cbn in L2; lia|reflexivity]. }
  rewrite B0. cbn [bind]. fold (stamped (b_data buf) ((waddr - 1) / 2 + 1) nwords).
  set (data1 := stamped (b_data buf) ((waddr - 1) / 2 + 1) nwords).
  replace (length (b_data buf) <? 2)%nat with false by (symmetry; apply Nat.ltb_ge; lia).
  replace (length (b_data buf) <? Z.to_nat nwords)%nat with false by (symmetry; apply Nat.ltb_ge; lia). cbn [orb].
  rewrite f_write_rw by auto. cbn [bind].
  assert (EL2 : length e = (2 * f_plen f)%nat /\ all_words e).
  { destruct (page_nth_ok _ _ _ _ G P) as (_ & _ & _ & Q). rewrite Forall_forall in Q. apply Q. eapply nth_error_In; eassumption. }
  assert (KF : kp_fits f (b_data buf) -> exists ks em, kp_read (f_kp f) (f_hdr f) data1 = Some ks /\
    kp_write (f_kp f) (f_hdr f) e (ks ++ repeat 0 (MAX_PRIMARY_LNG - length ks)) (repeat 0 MAX_PRIMARY_LNG) (repeat 0 MAX_PRIMARY_LNG) = Some em).
  { intros Q. apply Q; [apply hkeep_refl|apply stamped_length|apply EL2]. }
  destruct (kp_read (f_kp f) (f_hdr f) data1) as [ks|] eqn:KR. 2: { intros Q. destruct (KF Q) as (ks & em & A & _). discriminate. } cbn [bind].
  rewrite CE. cbn [bind]. rewrite (get_page_own _ i (f_setdisk f (write_at (f_disk f) (Z.to_nat (waddr - 1)) (firstn (Z.to_nat nwords) data1)) (f_log f ++ [(waddr, firstn (Z.to_nat nwords) data1)]))) by apply setf_same.
  change (f_pages (f_setdisk f _ _)) with (f_pages f). rewrite P. cbn [bind]. rewrite E. cbn [bind].
  destruct (kp_write (f_kp f) (f_hdr f) e _ _ _) as [em|] eqn:KW. 2: { intros Q. destruct (KF Q) as (ks' & em & A & B). injection A as <-. congruence. } cbn [bind].
  unfold set_page. cbn [fst snd]. rewrite setf_same. rewrite setf_same. cbn [bind].
  assert (DW : all_words data1).
  { unfold data1, stamped. apply upd_words; [|apply hd_word]. apply upd_words; [exact AW|apply w32_range]. }
  destruct (g_kp _ _ G) as [KP1 KP2]. destruct em as [em1 em2]. specialize (KP1 _ _ _ _ _ _ _ KW). destruct KP1 as (EL & _ & EW).
  destruct EL2 as [EL2 EW2]. pose proof (g_plen _ _ G) as PL. cbn [fst].
  assert (WK : all_words (ks ++ repeat 0 (MAX_PRIMARY_LNG - length ks))).
  { apply all_words_app. split; [eapply KP2; eassumption|apply all_words_repeat0]. }
  specialize (EW EW2 WK).
  set (e1 := upd (upd em1 1 (w32 ((waddr - 1) / 2 + 1))) 0 (mk_hd (w_idtyp (nth 0 (b_data buf) 0)) (nwords / 2))).
  split; [reflexivity|]. split; [apply others_setf, others_setf, others_setf, others_refl|]. exists e1.
  split; [|split; [|split]].
  - rewrite setf_same. f_equal. unfold rec_file, rec_hdr. destruct rw, te; cbv zeta; try reflexivity.
    + f_equal. f_equal. pose proof (g_hlen16 _ _ G). rewrite (hget_hadd _ H_NRWR) by hlen. reflexivity.
  - assert (em1 = em1) by reflexivity. destruct em1 as [|x0 [|x1 em1]]; cbn [length] in EL; try lia.
    unfold entry_for, e1. rewrite !upd_length. cbn [length]. split; [cbn [length] in EL; lia|].
    split. { apply upd_words; [|apply hd_word]. apply upd_words; [exact EW|apply w32_range]. }
    unfold e_idtyp, e_lng, e_addr. cbn [upd nth]. rewrite hd_idtyp, hd_lng.
    split; [apply Z.mod_small; apply w_idtyp_range|]. split; [|apply w32_id; exact AD].
    apply Z.mod_small. split; [apply Z.div_pos; lia|apply Z.div_lt_upper_bound; lia].
  - exists ks, (em1, em2). auto.
  - reflexivity.
Qed.

(** A write made by c_xdfput: past the end, or over the record rewritten. *)
Definition put_write (f : fte) (tgt : option (nat * nat)) (w : Z * list Z) : Prop :=
  fsize f < fst w \/ exists a b e, tgt = Some (a, b) /\ ent f a b = Some e /\ fst w = 2 * (e_addr e - 1) + 1 /\ Z.of_nat (length (snd w)) = 2 * e_lng e.

Record put_effect (f f' : fte) (tgt : option (nat * nat)) (k r : nat) (e1 data : list Z) : Prop := {
  pe_inv : finv f';
  pe_stat : stat f f';
  pe_new : ent f' k r = Some e1;
  pe_data : rec_data f' e1 = data;
  pe_tgt : forall a b, tgt = Some (a, b) -> exists e, ent f a b = Some e /\ live e = true /\
             ((a, b) <> (k, r) -> ent f' a b = Some (upd e 0 (mk_hd 254 (e_lng e))));
  pe_other : forall j s, (j, s) <> (k, r) -> tgt <> Some (j, s) -> ent f' j s = ent f j s;
  pe_keep : forall j s e, ent f j s = Some e -> (j, s) <> (k, r) -> rec_data f' e = rec_data f e;
  pe_where : tgt = Some (k, r) \/ (ent f k r = None /\ k = (length (f_pages f') - 1)%nat /\ nth_error (nents (f_pages f')) k = Some (S r));
  pe_idtyp : e_idtyp e1 = w_idtyp (nth 0 data 0);
  pe_lng : 2 * e_lng e1 = Z.of_nat (length data);
  pe_fsiz : fsize f <= fsize f' <= fsize f + page_wlen (f_plen f) + Z.of_nat (length data);
  pe_below : tgt <> Some (k, r) -> same_below (fsize f) f f';
  pe_log : exists l, f_log f' = f_log f ++ l /\ f_disk f' = apply_log (f_disk f) l /\ Forall (put_write f tgt) l /\
             (tgt <> Some (k, r) -> Forall (fun w => fsize f < fst w) l);
  pe_np : (length (f_pages f) <= length (f_pages f'))%nat
}.

Lemma entry_at_ent f f' ns : (forall j s, entry_at ns (f_pages f') j s = ent f j s) -> forall j s, entry_at ns (f_pages f') j s = ent f j s.
Proof. auto. Qed.

Lemma rec_ext_bound ns f k r e : ginv ns f -> entry_at ns (f_pages f) k r = Some e ->
  0 <= 2 * (e_addr e - 1) /\ 0 < 2 * e_lng e /\ 2 * (e_addr e - 1) + 2 * e_lng e <= fsize f.
Proof.
  intros G P. assert (E : ext ns f (ORec k r) = Some (2 * (e_addr e - 1), 2 * e_lng e)) by (cbn [ext]; rewrite P; reflexivity).
  pose proof (g_in _ _ G _ _ _ E). unfold fsize. lia.
Qed.

Lemma pages_upd_inv (f : fte) k p' j q : nth_error (upd (f_pages f) k p') j = Some q -> (j = k /\ q = p') \/ (j <> k /\ nth_error (f_pages f) j = Some q).
Proof.
  rewrite upd_nth. destruct (Nat.eqb_spec j k) as [->|]; cbn [andb]; [|auto].
  destruct (Nat.ltb_spec k (length (f_pages f))); [intros H0; injection H0 as <-; auto|].
  intros Q. exfalso. assert (k < length (f_pages f))%nat by (apply nth_error_Some; congruence). lia.
Qed.

Lemma nents_rec f k r p e1 : nth_error (f_pages f) k = Some p ->
  nents (upd (f_pages f) k (p_setmod (p_setent p r e1) true)) = nents (f_pages f).
Proof. intros P. apply (nents_upd_same _ _ p); auto. Qed.

Lemma slotted_none i f f2 ns2 k r p2 : slotted i f f2 ns2 k r p2 -> ent f k r = None.
Proof.
  intros SL. unfold ent. rewrite <- (s_ent _ _ _ _ _ _ _ SL). unfold entry_at. rewrite (s_r _ _ _ _ _ _ _ SL). destruct (nth_error (f_pages f2) k); [|reflexivity].
  rewrite (proj2 (Nat.ltb_ge r r)) by lia. reflexivity.
Qed.

Lemma firstn2_stamped d a n m : word_ok a -> (2 <= m)%nat -> (2 <= length d)%nat ->
  firstn 2 (firstn m (stamped d a n)) = [mk_hd (w_idtyp (nth 0 d 0)) (n / 2); a].
Proof.
  intros W M L. rewrite firstn_firstn, Nat.min_l by lia. destruct d as [|x [|y d]]; cbn [length] in L; try lia.
  unfold stamped. cbn [upd firstn nth]. rewrite w32_id by exact W. reflexivity.
Qed.

(** Final stage on a slotted file [f2], possibly after a deletion: [g]. *)
Lemma put_append_final i f f2 ns2 k r p2 g pg e e1 rw nwords ws idt tgt :
  finv f -> slotted i f f2 ns2 k r p2 ->
  (match tgt with
   | None => g = f2
   | Some (a, b) => exists pa ea, nth_error (f_pages f2) a = Some pa /\ ent f a b = Some ea /\ live ea = true /\ g = del_file f2 a b pa ea
   end) ->
  nth_error (f_pages g) k = Some pg -> nth_error (p_ents pg) r = Some e ->
  entry_for e e1 idt (nwords / 2) (hget (f_hdr g) H_FSIZ + 1) -> 1 <= idt <= 125 -> nwords mod 2 = 0 -> 2 <= nwords ->
  Z.of_nat (length ws) = nwords -> room f nwords -> idt = w_idtyp (nth 0 ws 0) ->
  firstn 2 ws = [mk_hd idt (nwords / 2); hget (f_hdr g) H_FSIZ + 1] ->
  put_effect f (rec_file g k r pg e1 rw true (f_nxtadr g) nwords ws) tgt k r e1 ws.
Proof.
  intros [GI II] SL T PG EG EF ID EV NW LW RM IDT F2.
  pose proof (s_inv _ _ _ _ _ _ _ SL) as G2.
  assert (H16 : (16 <= length (f_hdr f2))%nat) by apply (g_hlen16 _ _ G2).
  (* facts on g *)
  assert (GG : ginv ns2 g /\ gimg (fun j => length (f_pages f) - 1 <= j)%nat g /\ f_disk g = f_disk f2 /\ f_nxtadr g = f_nxtadr f2 /\
    hget (f_hdr g) H_FSIZ = hget (f_hdr f2) H_FSIZ /\ length (f_pages g) = length (f_pages f2) /\ nents (f_pages g) = nents (f_pages f2) /\ stat f2 g /\
    (forall j q, nth_error (f_pages g) j = Some q -> exists q2, nth_error (f_pages f2) j = Some q2 /\ p_addr q = p_addr q2 /\ (p_mod q2 = true -> p_mod q = true)) /\
    (forall j s, entry_at ns2 (f_pages g) j s =
      match tgt with Some (a, b) => if Nat.eqb j a && Nat.eqb s b then option_map (fun x => upd x 0 (mk_hd 254 (e_lng x))) (ent f a b) else ent f j s | None => ent f j s end)).
  { destruct tgt as [[a b]|].
    - destruct T as (pa & ea & PA & EA & LV & ->).
      assert (EA2 : entry_at ns2 (f_pages f2) a b = Some ea) by (rewrite (s_ent _ _ _ _ _ _ _ SL); exact EA).
      split; [apply del_ginv; auto|]. split; [apply del_gimg; auto; apply (s_img _ _ _ _ _ _ _ SL)|].
      cbn [del_file f_setmod f_sethdr f_setpages f_disk f_nxtadr f_hdr f_pages].
      split; [reflexivity|]. split; [reflexivity|]. split; [hs; reflexivity|]. split; [apply upd_length|].
      split; [apply nents_rec; exact PA|]. split. { unfold stat. cbn [del_file f_setmod f_sethdr f_setpages f_iun f_ro f_std f_kp f_plen f_ilen f_hdr]. repeat (split; [reflexivity|]). hk. }
      split.
      + intros j q Hq. apply pages_upd_inv in Hq. destruct Hq as [[-> ->]|[_ Hq]]; [exists pa; auto|exists q; auto].
      + intros j s. rewrite (entry_at_upd ns2 _ a b pa (p_setmod (p_setent pa b (upd ea 0 (mk_hd 254 (e_lng ea)))) true) (upd ea 0 (mk_hd 254 (e_lng ea))) PA eq_refl). rewrite EA2, EA. cbn [option_map].
        destruct (Nat.eqb j a && Nat.eqb s b); [reflexivity|]. apply (s_ent _ _ _ _ _ _ _ SL).
    - subst g. split; [exact G2|]. split; [apply (s_img _ _ _ _ _ _ _ SL)|].
      repeat (split; [reflexivity|]). split; [apply stat_refl|]. split; [intros j q Hq; exists q; auto|].
      intros j s. apply (s_ent _ _ _ _ _ _ _ SL). }
  destruct GG as (G & IMG & GD & GN & GF & GL & GNE & GS & GPG & GE).
  pose proof (s_last _ _ _ _ _ _ _ SL) as K. rewrite <- GL in K.
  pose proof (s_r _ _ _ _ _ _ _ SL) as NR. pose proof (s_fsiz _ _ _ _ _ _ _ SL) as FZ.
  pose proof (hget_word _ _ H_FSIZ G) as FW. unfold word_ok in FW.
  assert (PLN : f_plen g = f_plen f).
  { destruct GS as (_&_&_&_&A&_). destruct (s_stat _ _ _ _ _ _ _ SL) as (_&_&_&_&B&_). congruence. }
  assert (FG : fsize g = fsize f2) by (unfold fsize; rewrite GF; reflexivity).
  unfold room in RM.
  assert (G' : ginv (upd ns2 k (S r)) (rec_file g k r pg e1 rw true (f_nxtadr g) nwords ws)).
  { apply (rec_append ns2 g k r pg e e1 rw nwords ws idt); auto. fold (fsize g). lia. }
  set (F' := rec_file g k r pg e1 rw true (f_nxtadr g) nwords ws) in *.
  assert (NE' : nents (f_pages F') = upd ns2 k (S r)).
  { unfold F'. cbn [rec_file f_setmod f_setnxt f_sethdr f_setpages f_pages]. rewrite nents_rec by exact PG.
    rewrite GNE. apply (s_nents _ _ _ _ _ _ _ SL). }
  assert (R : (r < length (p_ents pg))%nat) by (apply nth_error_Some; congruence).
  pose proof (entry_at_snoc ns2 (f_pages g) k r pg (p_setmod (p_setent pg r e1) true) e1 NR PG R eq_refl) as EA'.
  assert (ENT : forall j s, ent F' j s = if Nat.eqb j k && Nat.eqb s r then Some e1 else entry_at ns2 (f_pages g) j s).
  { intros j s. unfold ent. rewrite NE'. apply EA'. }
  assert (NONE : ent f k r = None).
  { unfold ent. rewrite <- (s_ent _ _ _ _ _ _ _ SL). unfold entry_at. rewrite NR. destruct (nth_error (f_pages f2) k); [|reflexivity].
    rewrite (proj2 (Nat.ltb_ge r r)) by lia. reflexivity. }
  assert (DD : f_disk F' = write_at (f_disk f2) (Z.to_nat (fsize f2)) ws).
  { unfold F'. cbn [rec_file f_setmod f_setnxt f_sethdr f_setpages f_setdisk f_disk]. rewrite GD, GN. f_equal.
    rewrite (g_nxt _ _ G2). unfold fsize. f_equal. lia. }
  pose proof (g_size _ _ G2) as SZ2. fold (fsize f2) in SZ2. unfold dsize in SZ2.
  assert (SB : same_below (fsize f) f F').
  { intros a n H. rewrite DD. rewrite range_write_other by lia. apply (s_below _ _ _ _ _ _ _ SL). exact H. }
  destruct EF as (EL1 & EW1 & ET & ELN & EAD). rewrite GF in EAD.
  constructor.
  - split; [rewrite NE'; exact G'|].
    apply (rec_append_gimg _ g k r pg e1 rw true (f_nxtadr g) nwords ws IMG PG).
    + rewrite GN, GD, (g_nxt _ _ G2). unfold dsize, fsize in *. lia.
    + intros j q Hj D SK. destruct (GPG j q Hj) as (q2 & Q2 & _ & M). apply M. apply (s_mod _ _ _ _ _ _ _ SL j q2 Q2 D SK).
    + intros j q Hj. left. pose proof (page_ext_bound _ _ _ _ G Hj). rewrite (g_nxt _ _ G). unfold fsize in *. lia.
    + intros j q Hj. apply (page_ext_bound _ _ _ _ G Hj).
  - apply stat_trans with f2; [apply (s_stat _ _ _ _ _ _ _ SL)|]. apply stat_trans with g; [exact GS|].
    unfold stat. cbn [F' rec_file f_setmod f_setnxt f_sethdr f_setpages f_setdisk f_iun f_ro f_std f_kp f_plen f_ilen f_hdr].
    repeat (split; [reflexivity|]). apply hkeep_rec. apply (g_hlen16 _ _ G).
  - rewrite ENT, !Nat.eqb_refl. reflexivity.
  - unfold rec_data. rewrite DD, EAD, ELN.
    replace (Z.to_nat (2 * (nwords / 2))) with (length ws) by (pose proof (Z.div_mod nwords 2 ltac:(lia)); lia).
    replace (2 * (hget (f_hdr f2) H_FSIZ + 1 - 1)) with (fsize f2) by (unfold fsize; lia).
    apply range_write_same. lia.
  - intros a b ->. destruct T as (pa & ea & PA & EA & LV & _). exists ea. split; [exact EA|]. split; [exact LV|].
    intros D. rewrite ENT. destruct (Nat.eqb_spec a k), (Nat.eqb_spec b r); cbn [andb]; try (exfalso; apply D; congruence);
      rewrite GE, !Nat.eqb_refl, EA; reflexivity.
  - intros j s D D2. rewrite ENT. destruct (Nat.eqb_spec j k), (Nat.eqb_spec s r); cbn [andb]; try (exfalso; apply D; congruence);
    rewrite GE; (destruct tgt as [[a b]|]; [|reflexivity]); destruct (Nat.eqb_spec j a), (Nat.eqb_spec s b); cbn [andb]; try reflexivity; exfalso; apply D2; congruence.
  - intros j s x X D. unfold rec_data. apply SB. pose proof (rec_ext_bound _ _ _ _ _ GI X). lia.
  - right. split; [exact NONE|]. split.
    + unfold F'. cbn [rec_file f_setmod f_setnxt f_sethdr f_setpages f_pages]. rewrite upd_length. exact K.
    + rewrite NE'. apply upd_nth_same. apply nth_error_Some. congruence.
  - rewrite ET. exact IDT.
  - rewrite ELN, LW. pose proof (Z.div_mod nwords 2 ltac:(lia)). lia.
  - assert (FF : fsize F' = fsize f2 + nwords).
    { pose proof (g_nxt _ _ G') as X. unfold fsize. unfold F'. cbn [rec_file f_setmod f_setnxt f_sethdr f_hdr].
      rewrite rec_hdr_fsiz by apply (g_hlen16 _ _ G). rewrite GF. rewrite w32_id by (unfold word_ok, fsize in *; pose proof (Z.div_mod nwords 2 ltac:(lia)); lia).
      pose proof (Z.div_mod nwords 2 ltac:(lia)); lia. }
    rewrite FF, LW. lia.
  - intros _. exact SB.
  - destruct (s_log _ _ _ _ _ _ _ SL) as (l & L1 & L2 & L3).
    assert (GLG : f_log g = f_log f2). { destruct tgt as [[a b]|]; [destruct T as (pa & ea & _ & _ & _ & ->)|subst g]; reflexivity. }
    assert (FA : Forall (fun w => fsize f < fst w) (l ++ [(f_nxtadr g, ws)])).
    { apply Forall_app. split; [exact L3|]. constructor; [|constructor]. cbn [fst]. rewrite (g_nxt _ _ G). unfold fsize in *. lia. }
    exists (l ++ [(f_nxtadr g, ws)]). unfold F' at 1 2. cbn [rec_file f_setmod f_setnxt f_sethdr f_setpages f_setdisk f_disk f_log].
    rewrite GLG, L1, <- app_assoc, GD, L2, apply_log_app. split; [reflexivity|]. split; [reflexivity|]. split; [|auto].
    eapply Forall_impl; [|exact FA]. intros x Hx. left. exact Hx.
  - unfold F'. cbn [rec_file f_setmod f_setnxt f_sethdr f_setpages f_pages]. rewrite upd_length, GL. apply (s_np _ _ _ _ _ _ _ SL).
Qed.

(** Rewriting in place. *)
Lemma put_inplace_final f a b pa ea pg e1 nwords ws idt :
  finv f -> nth_error (f_pages f) a = Some pa -> ent f a b = Some ea -> live ea = true ->
  2 * e_lng ea = nwords -> nth_error (f_pages (del_file f a b pa ea)) a = Some pg ->
  entry_for (upd ea 0 (mk_hd 254 (e_lng ea))) e1 idt (nwords / 2) (e_addr ea) ->
  1 <= idt <= 125 -> Z.of_nat (length ws) = nwords -> idt = w_idtyp (nth 0 ws 0) ->
  firstn 2 ws = [mk_hd idt (nwords / 2); e_addr ea] ->
  put_effect f (rec_file (del_file f a b pa ea) a b pg e1 true false (2 * (e_addr ea - 1) + 1) nwords ws) (Some (a, b)) a b e1 ws.
Proof.
  intros [GI II] PA EA LV NW PG EF ID LW IDT F2.
  set (g := del_file f a b pa ea) in *.
  assert (G : ginv (nents (f_pages f)) g) by (apply del_ginv; auto).
  assert (H16 : (16 <= length (f_hdr f))%nat) by apply (g_hlen16 _ _ GI).
  set (ed := upd ea 0 (mk_hd 254 (e_lng ea))).
  destruct (entry_shape _ _ _ _ _ GI EA) as [SL SW]. pose proof (g_plen _ _ GI) as PL.
  destruct (e_upd0 ea 254 (e_lng ea) ltac:(lia)) as (T1 & T2 & T3). fold ed in T1, T2, T3. rewrite e_lng_mod in T2. change (254 mod 256) with 254 in T1.
  assert (ED : entry_at (nents (f_pages f)) (f_pages g) a b = Some ed).
  { cbn [g del_file f_setmod f_sethdr f_setpages f_pages]. rewrite (entry_at_upd _ _ a b pa (p_setmod (p_setent pa b ed) true) ed PA eq_refl), !Nat.eqb_refl. cbn [andb].
    unfold ent in EA. rewrite EA. reflexivity. }
  assert (DIV : nwords / 2 = e_lng ea) by (rewrite <- NW, Z.mul_comm; apply Z.div_mul; lia).
  assert (G' : ginv (nents (f_pages f)) (rec_file g a b pg e1 true false (2 * (e_addr ea - 1) + 1) nwords ws)).
  { apply (rec_inplace _ g a b pg ed e1 nwords ws idt); auto.
    - unfold live. rewrite T1. reflexivity.
    - rewrite T2. auto.
    - rewrite T3. reflexivity.
    - rewrite T3. exact EF.
    - rewrite <- NW, Z.mul_comm. apply Z.mod_mul. lia.
    - rewrite T3. exact F2. }
  set (F' := rec_file g a b pg e1 true false (2 * (e_addr ea - 1) + 1) nwords ws) in *.
  assert (NE' : nents (f_pages F') = nents (f_pages f)).
  { unfold F'. cbn [rec_file f_setmod f_setnxt f_sethdr f_setpages f_pages]. rewrite nents_rec by exact PG.
    cbn [g del_file f_setmod f_sethdr f_setpages f_pages]. apply nents_rec. exact PA. }
  assert (ENT : forall j s, ent F' j s = if Nat.eqb j a && Nat.eqb s b then Some e1 else ent f j s).
  { intros j s. unfold ent. rewrite NE'. unfold F'. cbn [rec_file f_setmod f_setnxt f_sethdr f_setpages f_pages].
    rewrite (entry_at_upd _ _ a b pg (p_setmod (p_setent pg b e1) true) e1 PG eq_refl). rewrite ED. destruct (Nat.eqb j a && Nat.eqb s b) eqn:Q; [reflexivity|].
    cbn [g del_file f_setmod f_sethdr f_setpages f_pages]. rewrite (entry_at_upd _ _ a b pa (p_setmod (p_setent pa b ed) true) ed PA eq_refl), Q. reflexivity. }
  pose proof (rec_ext_bound _ _ _ _ _ GI EA) as RB. pose proof (g_size _ _ GI) as SZ. unfold dsize in SZ. fold (fsize f) in SZ.
  assert (DD : f_disk F' = write_at (f_disk f) (Z.to_nat (2 * (e_addr ea - 1))) ws).
  { unfold F'. cbn [rec_file f_setmod f_setnxt f_sethdr f_setpages f_setdisk f_disk g del_file]. f_equal. f_equal. lia. }
  destruct EF as (EL1 & EW1 & ET & ELN & EAD).
  assert (XA : ext (nents (f_pages f)) f (ORec a b) = Some (2 * (e_addr ea - 1), 2 * e_lng ea)) by (cbn [ext]; unfold ent in EA; rewrite EA; reflexivity).
  constructor.
  - split; [rewrite NE'; exact G'|].
    apply (rec_append_gimg (fun _ => False) g a b pg e1 true false (2 * (e_addr ea - 1) + 1) nwords ws).
    + apply del_gimg; auto.
    + exact PG.
    + change (f_disk g) with (f_disk f). unfold dsize. lia.
    + intros j q _ _ [].
    + intros j q Hj. assert (XP : ext (nents (f_pages f)) g (OPage j) = Some (2 * (p_addr q - 1), page_wlen (f_plen g))) by (cbn [ext]; rewrite Hj; reflexivity).
      assert (XA' : ext (nents (f_pages f)) g (ORec a b) = Some (2 * (e_addr ea - 1), 2 * e_lng ea)) by (cbn [ext]; rewrite ED; cbn [option_map]; rewrite T2, T3; reflexivity).
      pose proof (g_apart _ _ G _ _ _ _ XP XA' ltac:(discriminate)) as AP. unfold apart in AP. cbn [fst snd] in AP. lia.
    + intros j q Hj. apply (page_ext_bound _ _ _ _ G Hj).
  - unfold stat. cbn [F' rec_file f_setmod f_setnxt f_sethdr f_setpages f_setdisk f_iun f_ro f_std f_kp f_plen f_ilen f_hdr g del_file].
    repeat (split; [reflexivity|]). eapply hkeep_trans; [|apply hkeep_rec; apply (g_hlen16 _ _ G)]. unfold g, del_file. cbn [f_hdr f_setmod f_sethdr]. hk.
  - rewrite ENT, !Nat.eqb_refl. reflexivity.
  - unfold rec_data. rewrite DD, EAD, ELN, DIV, NW, <- LW, Nat2Z.id. apply range_write_same. lia.
  - intros x y H. injection H as <- <-. exists ea. split; [exact EA|]. split; [exact LV|]. intros D. congruence.
  - intros j s D _. rewrite ENT. destruct (Nat.eqb_spec j a), (Nat.eqb_spec s b); cbn [andb]; try reflexivity. exfalso. apply D. congruence.
  - intros j s x X D. unfold rec_data. rewrite DD.
    assert (XX : ext (nents (f_pages f)) f (ORec j s) = Some (2 * (e_addr x - 1), 2 * e_lng x)) by (cbn [ext]; unfold ent in X; rewrite X; reflexivity).
    assert (ND : ORec j s <> ORec a b) by (intros Q; injection Q as -> ->; apply D; reflexivity).
    pose proof (g_apart _ _ GI _ _ _ _ XX XA ND) as AP. unfold apart in AP. cbn [fst snd] in AP.
    pose proof (rec_ext_bound _ _ _ _ _ GI X). apply range_write_other; lia.
  - left. reflexivity.
  - rewrite ET. exact IDT.
  - rewrite ELN, DIV, LW. exact NW.
  - assert (FF : fsize F' = fsize f).
    { unfold fsize, F'. cbn [rec_file f_setmod f_setnxt f_sethdr f_hdr]. rewrite rec_hdr_fsiz by apply (g_hlen16 _ _ G).
      cbn [g del_file f_setmod f_sethdr f_hdr]. hs. reflexivity. }
    assert (0 <= page_wlen (f_plen f)) by (unfold page_wlen; lia). lia.
  - intros D. exfalso. apply D. reflexivity.
  - exists [(2 * (e_addr ea - 1) + 1, ws)]. split; [reflexivity|]. split; [reflexivity|]. split; [|intros D; exfalso; apply D; reflexivity].
    constructor; [|constructor]. right. exists a, b, ea. cbn [fst snd]. split; [reflexivity|]. split; [exact EA|]. split; [reflexivity|]. rewrite LW, NW. reflexivity.
  - unfold F'. cbn [rec_file f_setmod f_setnxt f_sethdr f_setpages f_pages g del_file]. rewrite !upd_length. lia.
Qed.
