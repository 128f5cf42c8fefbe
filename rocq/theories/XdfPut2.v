(** c_xdfput as a whole: effect on the directory and on the record contents. *)
From Coq Require Import ZArith List Lia Bool.
From Verif Require Import Bits Handles WaFile Xdf XdfLib XdfInv XdfDel XdfPut.
Import ListNotations.
Open Scope Z_scope.

(** Header words no operation on an open file changes: identification, number
    and lengths of keys, access mode, key descriptors. *)
Definition hkept (k : nat) : Prop := (k < 4 \/ k = 10 \/ k = 11 \/ 14 <= k)%nat.
Definition hkeep (h h' : list Z) : Prop := length h' = length h /\ forall k, hkept k -> hget h' k = hget h k.
Lemma hkeep_refl h : hkeep h h.
Proof. split; auto. Qed.
Lemma hkeep_trans a b c : hkeep a b -> hkeep b c -> hkeep a c.
Proof. intros [A1 A2] [B1 B2]. split; [congruence|]. intros k K. rewrite B2, A2 by exact K. reflexivity. Qed.
Lemma hkeep_hset a h k v : hkeep a h -> (k < length a)%nat -> ~ hkept k -> hkeep a (hset h k v).
Proof.
  intros [A1 A2] L N. split; [rewrite hset_length; exact A1|]. intros j J. rewrite hget_hset by lia.
  destruct (Nat.eqb_spec j k) as [->|]; [contradiction|]. auto.
Qed.
Lemma hkeep_hadd a h k v : hkeep a h -> (k < length a)%nat -> ~ hkept k -> hkeep a (hadd h k v).
Proof. intros. apply hkeep_hset; assumption. Qed.
Lemma hkeep_rwflg h h' : hkeep h h' -> hget h' H_RWFLG = hget h H_RWFLG.
Proof. intros [_ K]. apply K. unfold hkept, H_RWFLG. lia. Qed.
Lemma hkeep_lng h h' : hkeep h h' -> h_lng h' = h_lng h.
Proof. intros [_ K]. unfold h_lng. rewrite K; [reflexivity|]. unfold hkept. lia. Qed.
Ltac hk := repeat first [apply hkeep_refl | apply hkeep_hset; [|hlen|unfold hkept, H_FSIZ, H_NRWR, H_NXTN, H_NBD, H_PLST, H_NBIG, H_NEFF, H_NREC; lia]
                        | apply hkeep_hadd; [|hlen|unfold hkept, H_FSIZ, H_NRWR, H_NXTN, H_NBD, H_PLST, H_NBIG, H_NEFF, H_NREC; lia]].
Lemma hkeep_rec f b c n : (16 <= length (f_hdr f))%nat -> hkeep (f_hdr f) (rec_hdr f b c n).
Proof. intros. unfold rec_hdr. destruct b, c; cbv zeta; hk. Qed.

(** Attributes no operation changes. *)
Definition stat (f f' : fte) : Prop :=
  f_iun f' = f_iun f /\ f_ro f' = f_ro f /\ f_std f' = f_std f /\ f_kp f' = f_kp f /\ f_plen f' = f_plen f /\
  (f_ilen f', f_smask f', length (f_target f'), length (f_cmask f')) = (f_ilen f, f_smask f, length (f_target f), length (f_cmask f)) /\
  hkeep (f_hdr f) (f_hdr f').
Lemma stat_refl f : stat f f.
Proof. unfold stat. repeat (split; [reflexivity|]). apply hkeep_refl. Qed.
Lemma stat_trans f g h : stat f g -> stat g h -> stat f h.
Proof. unfold stat. intros (A1&A2&A3&A4&A5&A6&A7) (B1&B2&B3&B4&B5&B6&B7). repeat (split; [congruence|]). eapply hkeep_trans; eassumption. Qed.
Lemma stat_rwflg f f' : stat f f' -> hget (f_hdr f') H_RWFLG = hget (f_hdr f) H_RWFLG.
Proof. intros (_&_&_&_&_&_&H). apply hkeep_rwflg. exact H. Qed.
Ltac st := unfold stat; repeat (split; [reflexivity|]).

(** Words of the record of a directory entry. *)
Definition rec_data (f : fte) (e : list Z) : list Z :=
  range (f_disk f) (Z.to_nat (2 * (e_addr e - 1))) (Z.to_nat (2 * e_lng e)).

(** Log entries made so far lie in the file. *)
Definition fsize (f : fte) : Z := 2 * hget (f_hdr f) H_FSIZ.

Definition room (f : fte) (n : Z) : Prop := fsize f + n + page_wlen (f_plen f) + 1 < 2 ^ 31.

(** Same words below [top]. *)
Definition same_below (top : Z) (f f' : fte) : Prop :=
  forall i n, Z.of_nat (i + n) <= top -> range (f_disk f') i n = range (f_disk f) i n.

Lemma nents_nth d k p : nth_error d k = Some p -> nth_error (nents d) k = Some (Z.to_nat (p_nent p)).
Proof. intros H. unfold nents. apply (map_nth_error (fun p => Z.to_nat (p_nent p)) _ _ H). Qed.

Lemma nent_bound f k p : ginv (nents (f_pages f)) f -> nth_error (f_pages f) k = Some p -> 0 <= p_nent p <= 256.
Proof.
  intros G P. pose proof (g_nsb _ _ G) as B. pose proof (nents_nth _ _ _ P) as N.
  rewrite Forall_forall in B. specialize (B _ (nth_error_In _ _ N)). unfold EPP in B.
  destruct (page_nth_ok _ _ _ _ G P) as (L & W & _). pose proof (all_words_nth (p_hd p) 5 W) as [A _]. fold (p_nent p) in A. lia.
Qed.

Lemma last_page ns f : ginv ns f -> exists q, nth_error (f_pages f) (length (f_pages f) - 1) = Some q.
Proof.
  intros G. pose proof (g_np _ _ G). destruct (nth_error (f_pages f) (length (f_pages f) - 1)) eqn:E; [eauto|].
  apply nth_error_None in E. lia.
Qed.

Lemma page_ext_bound ns f k p : ginv ns f -> nth_error (f_pages f) k = Some p ->
  0 <= 2 * (p_addr p - 1) /\ 2 * (p_addr p - 1) + page_wlen (f_plen f) <= fsize f.
Proof.
  intros G P. assert (E : ext ns f (OPage k) = Some (2 * (p_addr p - 1), page_wlen (f_plen f))) by (cbn [ext]; rewrite P; reflexivity).
  pose proof (g_in _ _ G _ _ _ E). unfold fsize. lia.
Qed.

Lemma f_write_rw junk f off ws : f_ro f = false -> 1 <= off <= dsize (f_disk f) + 1 ->
  f_write junk f off ws = Some (f_setdisk f (write_at (f_disk f) (Z.to_nat (off - 1)) ws) (f_log f ++ [(off, ws)])).
Proof. intros R O. unfold f_write. rewrite R, wawrit_plain by exact O. reflexivity. Qed.

(** The disk after a sequence of writes, as recorded in the log. *)
Definition apply_log (d : disk) (l : list (Z * list Z)) : disk :=
  fold_left (fun d w => write_at d (Z.to_nat (fst w - 1)) (snd w)) l d.
Lemma apply_log_app d l l' : apply_log d (l ++ l') = apply_log (apply_log d l) l'.
Proof. unfold apply_log. apply fold_left_app. Qed.

(** The slot stage. *)
Record slotted (i : nat) (f f2 : fte) (ns2 : list nat) (k r : nat) (p2 : page) : Prop := {
  s_inv : ginv ns2 f2;
  s_last : k = (length (f_pages f2) - 1)%nat;
  s_r : nth_error ns2 k = Some r;
  s_p : nth_error (f_pages f2) k = Some p2;
  s_r256 : (r < EPP)%nat;
  s_nents : nents (f_pages f2) = upd ns2 k (S r);
  s_cur : c_ent (f_cur f2) = Some ((i, k), r);
  s_ent : forall j s, entry_at ns2 (f_pages f2) j s = entry_at (nents (f_pages f)) (f_pages f) j s;
  s_below : same_below (fsize f) f f2;
  s_img : gimg (fun j => length (f_pages f) - 1 <= j)%nat f2;
  s_mod : forall j q, nth_error (f_pages f2) j = Some q -> j <> k -> (length (f_pages f) - 1 <= j)%nat -> p_mod q = true;
  s_stat : stat f f2;
  s_fsiz : fsize f <= fsize f2 <= fsize f + page_wlen (f_plen f);
  s_nrec : hget (f_hdr f2) H_NREC = hget (f_hdr f) H_NREC;
  s_log : exists l, f_log f2 = f_log f ++ l /\ f_disk f2 = apply_log (f_disk f) l /\ Forall (fun w => fsize f < fst w) l;
  s_np : (length (f_pages f) <= length (f_pages f2))%nat
}.

Definition quiet (f f' : fte) : Prop :=
  finv f' /\ stat f f' /\ (forall j s, entry_at (nents (f_pages f')) (f_pages f') j s = entry_at (nents (f_pages f)) (f_pages f) j s) /\
  f_disk f' = f_disk f /\ f_log f' = f_log f /\ f_hdr f' = f_hdr f /\ length (f_pages f') = length (f_pages f).

Lemma quiet_cur f c : finv f -> quiet f (f_setcur f c).
Proof.
  intros [G I]. unfold quiet. split; [|split; [st; apply hkeep_refl|auto 10]]. split; [apply ginv_cur; exact G|exact I].
Qed.

Lemma put_slot_spec junk i f : finv f -> f_ro f = false -> room f 0 ->
  match put_slot junk i f with
  | None => False
  | Some (inl (c, f')) => c = ERR_DIR_FULL /\ quiet f f'
  | Some (inr f2) => exists ns2 k r p2, slotted i f f2 ns2 k r p2
  end.
Proof.
  intros [G I] RO RM. destruct (last_page _ _ G) as [q Q]. pose proof (nent_bound _ _ _ G Q) as NB.
  pose proof (page_nth_ok _ _ _ _ G Q) as QOK. pose proof (g_np _ _ G) as NP.
  pose proof (nents_nth _ _ _ Q) as NQ.
  unfold put_slot. rewrite Q. cbn [bind].
  assert (EPPz : Z.of_nat EPP = 256) by reflexivity. rewrite EPPz.
  destruct (Z.leb_spec 256 (p_nent q)) as [FULL|FULL].
  - (* last page full *)
    set (f1 := f_setpages f (upd (f_pages f) (length (f_pages f) - 1) (p_setmod q true))).
    assert (L1 : length (f_pages f1) = length (f_pages f)) by apply upd_length.
    assert (G1 : ginv (nents (f_pages f)) f1).
    { apply (ginv_page _ f _ q); auto. unfold near. auto 10. }
    assert (N1 : nents (f_pages f1) = nents (f_pages f)) by (apply (nents_upd_same _ _ q); auto).
    assert (Q1 : nth_error (f_pages f1) (length (f_pages f1) - 1) = Some (p_setmod q true)).
    { rewrite L1. apply upd_nth_same. lia. }
    assert (I1 : gimg (fun _ => False) f1).
    { intros j p Hj _ M. cbn [f1 f_setpages f_pages] in Hj. rewrite upd_nth in Hj.
      destruct (Nat.eqb_spec j (length (f_pages f) - 1)) as [->|]; cbn [andb] in Hj; [|apply (I j p Hj); auto].
      destruct (_ <? _)%nat; [|apply (I _ p Hj); auto]. injection Hj as <-. cbn [p_setmod p_mod] in M.
      destruct M as [M|M]; [discriminate|]. apply (I _ q Q (fun x => x)). right. exact M. }
    unfold add_dir_page. rewrite L1.
    destruct (Nat.leb_spec MAX_DIR_PAGES (length (f_pages f))) as [FD|FD].
    + split; [reflexivity|]. unfold quiet. cbn [f_setcur f_pages f_disk f_log f_hdr].
      split. { split; [|exact I1]. apply ginv_cur. cbn [f_setcur f_pages]. rewrite N1. exact G1. }
      split; [st; apply hkeep_refl|]. rewrite N1, L1. split; [|auto].
      intros j s. apply (entry_at_upd_same _ _ _ q); auto.
    + cbv zeta. rewrite L1 in Q1. rewrite Q1.
      assert (RO1 : f_ro f1 = false) by exact RO.
      pose proof (g_nxt _ _ G1) as NX1. pose proof (g_size _ _ G1) as SZ1.
      pose proof (hget_word _ _ H_FSIZ G1) as FW. unfold word_ok in FW.
      rewrite f_write_rw; [|exact RO1|rewrite NX1; lia]. cbn [bind].
      set (pg := new_page junk (f_plen f1) ((f_nxtadr f1 - 1) / 2 + 1)).
      match goal with |- context [bind (nth_error (f_pages ?g) (length (f_pages f)))] => change g with (np_file f1 (p_setmod q true) pg) || idtac end.
      replace (f_setlink _ None _) with (np_file f1 (p_setmod q true) pg) by (unfold np_file; rewrite L1; reflexivity).
      assert (G2 : ginv (nents (f_pages f) ++ [0%nat]) (np_file f1 (p_setmod q true) pg)).
      { apply newpage_ginv; auto; try (rewrite L1; assumption). unfold room, fsize in RM. cbn [f1 f_setpages f_hdr f_plen]. lia. }
      set (f2 := np_file f1 (p_setmod q true) pg) in *.
      assert (PG2 : f_pages f2 = upd (f_pages f1) (length (f_pages f1) - 1) (p_seth (p_setmod q true) 4 (p_addr pg)) ++ [p_setmod pg true]) by reflexivity.
      assert (P2 : nth_error (f_pages f2) (length (f_pages f)) = Some (p_setmod pg true)).
      { rewrite PG2, nth_error_app2 by (rewrite upd_length; lia). rewrite upd_length, L1, Nat.sub_diag. reflexivity. }
      rewrite P2. cbn [bind].
      exists (nents (f_pages f) ++ [0%nat]), (length (f_pages f)), 0%nat, (p_seth (p_setmod pg true) 5 (p_nent pg + 1)).
      set (p5 := p_seth (p_setmod pg true) 5 (p_nent pg + 1)).
      set (f3 := f_setpages _ _). 
      assert (L2 : length (f_pages f2) = S (length (f_pages f))).
      { rewrite PG2, app_length, upd_length, L1. cbn [length]. lia. }
      assert (PG3 : f_pages f3 = upd (f_pages f2) (length (f_pages f)) p5) by reflexivity.
      assert (P5 : p_nent p5 = 1) by reflexivity.
      assert (POK5 : page_ok (f_plen f2) p5) by (apply page_ok_seth, page_ok_setmod, new_page_ok).
      constructor.
      * unfold f3. match goal with |- ginv _ (f_setpages ?g _) => apply (ginv_page _ g _ (p_setmod pg true)) end; [apply ginv_cur; exact G2|exact P2| |exact POK5].
        apply near_seth; lia.
      * rewrite PG3, upd_length, L2. lia.
      * rewrite nth_error_app2; unfold nents; rewrite map_length; [|lia]. rewrite Nat.sub_diag. reflexivity.
      * rewrite PG3. apply upd_nth_same. lia.
      * unfold EPP. lia.
      * rewrite PG3. unfold nents at 1. rewrite map_upd, P5. change (Z.to_nat 1) with 1%nat.
        rewrite PG2, map_app, map_upd. fold (nents (f_pages f1)). rewrite N1.
        replace (Z.to_nat (p_nent (p_seth (p_setmod q true) 4 (p_addr pg)))) with (Z.to_nat (p_nent q)).
        2: { f_equal. unfold p_nent, p_seth. cbn [p_hd p_setmod]. rewrite upd_nthd. reflexivity. }
        rewrite L1, (upd_self (nents (f_pages f))) by exact NQ.
        replace (length (f_pages f)) with (length (nents (f_pages f))) by apply map_length.
        cbn [map]. rewrite !upd_last. reflexivity.
      * reflexivity.
      * intros j s. rewrite PG3. rewrite (entry_at_upd_same _ _ _ (p_setmod pg true) p5 P2 eq_refl).
        rewrite PG2, L1. rewrite (entry_at_newpage (nents (f_pages f)) (f_pages f1) _ (p_setmod q true)); auto.
        -- apply (entry_at_upd_same _ _ _ q); auto.
        -- unfold nents. rewrite map_length. lia.
      * intros a n H. cbn [f3 f_setpages f_setcur f_disk f2 np_file f_setlink f_setnxt f_sethdr f_setdisk].
        apply range_write_other; change (f_disk f1) with (f_disk f) in *; change (f_nxtadr f1) with (f_nxtadr f) in *.
        -- unfold dsize in SZ1. lia.
        -- left. unfold fsize in H. change (f_hdr f1) with (f_hdr f) in *. lia.
      * intros j p Hj SK M. rewrite PG3 in Hj. rewrite upd_nth_other in Hj by lia.
        rewrite PG2, nth_error_app1 in Hj by (rewrite upd_length; lia). rewrite upd_nth_other in Hj by lia.
        cbn [f1 f_setpages f_pages] in Hj. rewrite upd_nth_other in Hj by lia.
        destruct (I j p Hj (fun x => x) M) as [O X]. split; [|exact X]. unfold on_disk in *.
        change (f_plen f3) with (f_plen f). rewrite <- O. pose proof (page_ext_bound _ _ _ _ G Hj) as PB.
        cbn [f3 f_setpages f_setcur f_disk f2 np_file f_setlink f_setnxt f_sethdr f_setdisk].
        change (f_disk f1) with (f_disk f) in *. change (f_nxtadr f1) with (f_nxtadr f) in *. change (f_hdr f1) with (f_hdr f) in *.
        unfold dsize, fsize in *. assert (0 <= page_wlen (f_plen f)) by (unfold page_wlen; lia).
        apply range_write_other; [lia|]. left. lia.
      * intros j p Hj D SK. rewrite PG3 in Hj. rewrite upd_nth_other in Hj by lia.
        assert (j < length (f_pages f2))%nat by (apply nth_error_Some; congruence).
        assert (j = length (f_pages f) - 1)%nat by lia. subst j. rewrite PG2, nth_error_app1 in Hj by (rewrite upd_length; lia).
        rewrite L1, upd_nth_same in Hj by lia. injection Hj as <-. reflexivity.
      * unfold stat. cbn [f3 f_setpages f_setcur f2 np_file f_setlink f_setnxt f_sethdr f_setdisk f_iun f_ro f_std f_kp f_plen f_ilen f_hdr f1].
        repeat (split; [reflexivity|]). pose proof (g_hlen16 _ _ G). hk.
      * pose proof (g_nxt _ _ G2) as NX2. unfold fsize. change (f_hdr f3) with (f_hdr f2).
        change (f_nxtadr f2) with (f_nxtadr f1 + page_wlen (f_plen f1)) in NX2. change (f_nxtadr f1) with (f_nxtadr f) in NX2.
        change (f_plen f1) with (f_plen f) in NX2. rewrite (g_nxt _ _ G) in NX2. assert (0 <= page_wlen (f_plen f)) by (unfold page_wlen; lia). lia.
      * cbn [f3 f_setpages f_setcur f2 np_file f_setlink f_setnxt f_sethdr f_setdisk f_hdr f1]. pose proof (g_hlen16 _ _ G). hs. reflexivity.
      * exists [(f_nxtadr f, p_words pg)]. split; [reflexivity|]. split; [reflexivity|]. constructor; [|constructor]. cbn [fst]. rewrite (g_nxt _ _ G). unfold fsize. lia.
      * rewrite PG3, upd_length, L2. lia.
  - cbn [bind].
    exists (nents (f_pages f)), (length (f_pages f) - 1)%nat, (Z.to_nat (p_nent q)), (p_seth q 5 (p_nent q + 1)).
    set (p5 := p_seth q 5 (p_nent q + 1)). set (f3 := f_setpages _ _).
    assert (PG3 : f_pages f3 = upd (f_pages f) (length (f_pages f) - 1) p5) by reflexivity.
    assert (P5 : p_nent p5 = p_nent q + 1). { unfold p5. rewrite p_nent_seth5 by apply QOK. apply w32_id. unfold word_ok. lia. }
    constructor.
    + unfold f3. match goal with |- ginv _ (f_setpages ?g _) => apply (ginv_page _ g _ q) end; [apply ginv_cur; exact G|exact Q| |apply page_ok_seth; exact QOK]. apply near_seth; lia.
    + rewrite PG3, upd_length. reflexivity.
    + exact NQ.
    + rewrite PG3. apply upd_nth_same. lia.
    + unfold EPP. lia.
    + rewrite PG3. unfold nents at 1. rewrite map_upd, P5. fold (nents (f_pages f)). f_equal. lia.
    + reflexivity.
    + intros j s. rewrite PG3. apply (entry_at_upd_same _ _ _ q); auto.
    + intros a n H. reflexivity.
    + intros j p Hj SK M. rewrite PG3 in Hj. rewrite upd_nth_other in Hj by lia. apply (I j p Hj (fun x => x) M).
    + intros j p Hj D SK. rewrite PG3 in Hj. rewrite upd_nth_other in Hj by lia.
      assert (j < length (f_pages f))%nat by (apply nth_error_Some; congruence). lia.
    + st. apply hkeep_refl.
    + unfold fsize. change (f_hdr f3) with (f_hdr f). assert (0 <= page_wlen (f_plen f)) by (unfold page_wlen; lia). lia.
    + reflexivity.
    + exists []. rewrite app_nil_r. auto.
    + rewrite PG3, upd_length. lia.
Qed.
