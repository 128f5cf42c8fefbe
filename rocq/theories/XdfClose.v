(** c_xdfcls: what is on disk after a close. *)
From Coq Require Import ZArith List Lia Bool.
From Verif Require Import Bits Handles WaFile Xdf XdfOpen XdfLib XdfInv XdfDel XdfPut XdfPut2 XdfPut3 XdfPut4.
Import ListNotations.
Open Scope Z_scope.

(** An entry after a close. *)
Definition close_ent (e : list Z) : list Z := if e_idtyp e =? 254 then upd e 0 (mk_hd 255 (e_lng e)) else e.

Lemma lor80_live t : 1 <= t <= 125 -> Z.lor t 0x80 =? 254 = false /\ Z.lor t 0x80 =? 255 = false /\ Z.land t 0x7F = t.
Proof.
  intros H.
  assert (D : forallb (fun t => negb (Z.lor t 0x80 =? 254) && negb (Z.lor t 0x80 =? 255) && (Z.land t 0x7F =? t)) (map Z.of_nat (seq 1 125)) = true) by (vm_compute; reflexivity).
  rewrite forallb_forall in D. specialize (D t).
  assert (I : In t (map Z.of_nat (seq 1 125))). { apply in_map_iff. exists (Z.to_nat t). split; [lia|]. apply in_seq. lia. }
  specialize (D I). apply andb_prop in D. destruct D as [D1 D3]. apply andb_prop in D1. destruct D1 as [D1 D2].
  apply negb_true_iff in D1, D2. apply Z.eqb_eq in D3. auto.
Qed.

Lemma upd0_self e : (0 < length e)%nat -> all_words e -> upd e 0 (mk_hd (e_idtyp e) (e_lng e)) = e.
Proof.
  intros L W. destruct e as [|a e]; [cbn in L; lia|]. unfold e_idtyp, e_lng. cbn [nth upd]. inversion W; subst. rewrite mk_hd_eta by assumption. reflexivity.
Qed.

Lemma close_ent_ok e : entry_ok e -> (0 < length e)%nat -> entry_ok (close_ent e).
Proof.
  intros (T & L & A) N. unfold close_ent. destruct (Z.eqb_spec (e_idtyp e) 254); [|split; auto].
  destruct (e_upd0 e 255 (e_lng e) N) as (T1 & T2 & T3). rewrite e_lng_mod in T2. unfold entry_ok. rewrite T1, T2, T3. auto.
Qed.
Lemma close_ent_shape e n : length e = n -> all_words e -> length (close_ent e) = n /\ all_words (close_ent e).
Proof.
  intros L W. unfold close_ent. destruct (_ =? _); [|auto]. rewrite upd_length. split; [exact L|]. apply upd_words; [exact W|apply hd_word].
Qed.
Lemma close_ent_fields e : (0 < length e)%nat -> e_lng (close_ent e) = e_lng e /\ e_addr (close_ent e) = e_addr e /\ live (close_ent e) = live e.
Proof.
  intros N. unfold close_ent. destruct (Z.eqb_spec (e_idtyp e) 254) as [T|]; [|auto].
  destruct (e_upd0 e 255 (e_lng e) N) as (T1 & T2 & T3). rewrite e_lng_mod in T2. split; [exact T2|]. split; [exact T3|].
  unfold live. rewrite T1, T. reflexivity.
Qed.

(** A write above the first [h] words, inside a file of [n] words. *)
Definition wr_above (h n : Z) (w : Z * list Z) : Prop := h < fst w /\ fst w - 1 + Z.of_nat (length (snd w)) <= n.

Lemma apply_log_above h d l : 0 <= h -> Forall (wr_above h (dsize d)) l ->
  length (apply_log d l) = length d /\ forall a n, Z.of_nat (a + n) <= h -> range (apply_log d l) a n = range d a n.
Proof.
  intros H0. revert d. induction l as [|[o ws] l IH]; intros d F; [auto|]. inversion F as [|? ? [W1 W2] F']; subst.
  change (apply_log d ((o, ws) :: l)) with (apply_log (write_at d (Z.to_nat (o - 1)) ws) l). cbn [fst snd] in *. unfold dsize in *.
  assert (L : length (write_at d (Z.to_nat (o - 1)) ws) = length d) by (rewrite write_at_length by lia; lia).
  destruct (IH (write_at d (Z.to_nat (o - 1)) ws)) as [A B]; [rewrite L; exact F'|]. split; [congruence|].
  intros a n Q. rewrite B by exact Q. apply range_write_other; lia.
Qed.

Lemma close_entries_spec junk h l : forall f, f_ro f = false -> 
  (forall e, In e l -> entry_ok e /\ (2 <= length e)%nat /\ all_words e /\ h <= 2 * (e_addr e - 1) /\ 2 * (e_addr e - 1) + 2 <= dsize (f_disk f)) ->
  exists d' lg', close_entries junk f l = Some (f_setdisk f d' lg', map close_ent l) /\ length d' = length (f_disk f) /\
    (exists mid, lg' = f_log f ++ mid /\ d' = apply_log (f_disk f) mid /\ Forall (wr_above h (dsize (f_disk f))) mid) /\
    (forall a n, (forall e, In e l -> e_idtyp e = 254 -> Z.of_nat (a + n) <= 2 * (e_addr e - 1) \/ 2 * (e_addr e - 1) + 2 <= Z.of_nat a) ->
       range d' a n = range (f_disk f) a n) /\
    (forall i e, nth_error l i = Some e -> e_idtyp e = 254 ->
       (forall j e', nth_error l j = Some e' -> j <> i -> 2 * (e_addr e' - 1) + 2 <= 2 * (e_addr e - 1) \/ 2 * (e_addr e - 1) + 2 <= 2 * (e_addr e' - 1)) ->
       range d' (Z.to_nat (2 * (e_addr e - 1))) 2 = [mk_hd 255 (e_lng e); e_addr e]).
Proof.
  induction l as [|e l IH]; intros f RO H.
  - exists (f_disk f), (f_log f). split; [cbn; f_equal; f_equal; destruct f; reflexivity|]. split; [reflexivity|]. split; [|split; [auto|intros [|i]; discriminate]]. exists []. rewrite app_nil_r. auto.
  - destruct (H e (or_introl eq_refl)) as ((T & LG & AD) & L2 & W & HB & BD).
    cbn [close_entries map]. cbv zeta. destruct (Z.eq_dec (e_idtyp e) 254) as [D|D].
    + rewrite D. change (Z.lor 254 128 =? 254) with true. cbv iota.
      rewrite f_write_rw by (try assumption; lia). cbn [bind].
      set (ws := firstn 2 (upd e 0 (mk_hd 255 (e_lng e)))).
      assert (LW : length ws = 2%nat) by (unfold ws; rewrite firstn_length, upd_length; lia).
      set (f1 := f_setdisk f _ _).
      assert (LD : length (f_disk f1) = length (f_disk f)).
      { cbn [f1 f_setdisk f_disk]. unfold dsize in BD. rewrite write_at_length by lia. rewrite LW. lia. }
      destruct (IH f1 RO) as (d' & lg' & E & LL & (mid & M1 & M2 & M3) & RG & RH).
      { intros x Hx. unfold dsize. rewrite LD. apply H. right. exact Hx. }
      rewrite E. cbn [bind fst snd]. exists d', lg'. split.
      { f_equal. f_equal. f_equal. unfold close_ent. rewrite D. reflexivity. }
      split; [congruence|]. split.
      { exists ((2 * (e_addr e - 1) + 1, ws) :: mid). rewrite M1. cbn [f1 f_log f_setdisk]. rewrite <- app_assoc. split; [reflexivity|].
        rewrite M2. split.
        - cbn [f1 f_disk f_setdisk]. unfold apply_log. cbn [fold_left fst snd]. rewrite ?Z.add_simpl_r. reflexivity.
        - unfold dsize in M3. rewrite LD in M3. constructor; [|exact M3]. unfold wr_above. cbn [fst snd]. rewrite LW. unfold dsize in *. lia. }
      split.
      { intros a n Q. rewrite RG by (intros x Hx; apply Q; right; exact Hx).
        cbn [f1 f_setdisk f_disk]. destruct (Q e (or_introl eq_refl) D); unfold dsize in BD; apply range_write_other; lia. }
      intros [|i] x Hx TX AP.
      * cbn [nth_error] in Hx. assert (x = e) as -> by congruence. rewrite RG.
        2: { intros y Hy TY. apply In_nth_error in Hy. destruct Hy as [j Hj]. pose proof (AP (S j) y Hj ltac:(lia)). destruct (H y (or_intror (nth_error_In _ _ Hj))) as ((_ & _ & ?) & _). lia. }
        cbn [f1 f_setdisk f_disk]. replace (2 * (e_addr e - 1) + 1 - 1) with (2 * (e_addr e - 1)) by lia.
        replace 2%nat with (length ws) by exact LW. unfold dsize in BD. rewrite range_write_same by lia.
        unfold ws. destruct e as [|e0 [|e1 e]]; cbn [length] in L2; try lia. reflexivity.
      * apply (RH i x Hx TX). intros j y Hy NJ. apply (AP (S j) y Hy). lia.
    + assert (NE : Z.lor (e_idtyp e) 128 =? 254 = false /\ mk_hd (if Z.lor (e_idtyp e) 128 =? 255 then 255 else Z.land (e_idtyp e) 127) (e_lng e) = nth 0 e 0).
      { destruct e as [|x e]; [cbn [length] in L2; lia|]. inversion W; subst.
        assert (ETA : mk_hd (e_idtyp (x :: e)) (e_lng (x :: e)) = x) by (unfold e_idtyp, e_lng; cbn [nth]; apply mk_hd_eta; assumption).
        cbn [nth]. rewrite <- ETA at 5. destruct T as [T|[T|T]].
        - destruct (lor80_live _ T) as (A & B & C). rewrite A, B, C. auto.
        - contradiction.
        - rewrite T. auto. }
      destruct NE as [-> NE]. rewrite NE.
      destruct (IH f RO) as (d' & lg' & E & LL & MID & RG & RH). { intros x Hx. apply H. right. exact Hx. }
      rewrite E. cbn [bind fst snd]. exists d', lg'. split.
      { f_equal. f_equal. f_equal. unfold close_ent. rewrite (proj2 (Z.eqb_neq _ _) D). destruct e; reflexivity. }
      split; [exact LL|]. split; [exact MID|]. split; [intros a n Q; apply RG; intros x Hx; apply Q; right; exact Hx|].
      intros [|i] x Hx TX AP; [cbn [nth_error] in Hx; congruence|]. apply (RH i x Hx TX). intros j y Hy NJ. apply (AP (S j) y Hy). lia.
Qed.

(** Exclusive or. *)
Lemma fold_lxor l a : fold_left Z.lxor l a = Z.lxor a (fold_left Z.lxor l 0).
Proof.
  revert a. induction l; intros; cbn [fold_left]; [rewrite Z.lxor_0_r; reflexivity|].
  rewrite IHl. rewrite (IHl (Z.lxor 0 a)). rewrite Z.lxor_0_l, Z.lxor_assoc. reflexivity.
Qed.
Lemma xorw_app a b : xorw (a ++ b) = Z.lxor (xorw a) (xorw b).
Proof. unfold xorw. rewrite fold_left_app, fold_lxor. reflexivity. Qed.
Lemma xorw_cons a l : xorw (a :: l) = Z.lxor a (xorw l).
Proof. unfold xorw. cbn [fold_left]. rewrite fold_lxor, Z.lxor_0_l. reflexivity. Qed.
Lemma lxor_word a b : word_ok a -> word_ok b -> word_ok (Z.lxor a b).
Proof.
  unfold word_ok. intros A B. split; [apply Z.lxor_nonneg; lia|].
  destruct (Z.eq_dec (Z.lxor a b) 0) as [->|N]; [lia|]. apply Z.log2_lt_pow2; [pose proof (proj2 (Z.lxor_nonneg a b)); lia|].
  eapply Z.le_lt_trans; [apply Z.log2_lxor; lia|].
  assert (LB : forall x, 0 <= x < 2 ^ 32 -> Z.log2 x < 32).
  { intros x X. destruct (Z.eq_dec x 0) as [->|]; [reflexivity|]. apply Z.log2_lt_pow2; lia. }
  apply Z.max_lub_lt; apply LB; assumption.
Qed.
Lemma xorw_word l : all_words l -> word_ok (xorw l).
Proof. induction 1; [unfold xorw; cbn; split; [lia|reflexivity]|]. rewrite xorw_cons. apply lxor_word; assumption. Qed.

(** The checksum word makes the exclusive or of words 4 and up zero. *)
Lemma checksum_zero plen p : page_ok plen p ->
  xorw (skipn 4 (p_words (p_seth p 6 (fold_left Z.lxor (skipn 4 (p_words p)) (nth 6 (p_hd p) 0))))) = 0.
Proof.
  intros POK. pose proof (p_words_words plen p POK) as PW. destruct POK as (L & W & _ & _). unfold p_words in *. cbn [p_seth p_hd p_ents].
  destruct (p_hd p) as [|h0 [|h1 [|h2 [|h3 [|h4 [|h5 [|h6 [|h7 [|]]]]]]]]]; try discriminate.
  cbn [upd nth skipn app]. cbn [app] in PW.
  assert (WW : word_ok (fold_left Z.lxor (h4 :: h5 :: h6 :: h7 :: concat (p_ents p)) h6)).
  { rewrite fold_lxor. apply lxor_word.
    - apply (all_words_nth (h0 :: h1 :: h2 :: h3 :: h4 :: h5 :: h6 :: h7 :: concat (p_ents p)) 6). exact PW.
    - change (word_ok (xorw (h4 :: h5 :: h6 :: h7 :: concat (p_ents p)))). apply xorw_word. apply (all_words_skipn 4 (h0 :: h1 :: h2 :: h3 :: h4 :: h5 :: h6 :: h7 :: concat (p_ents p))). exact PW. }
  rewrite w32_id by exact WW. rewrite fold_lxor. fold (xorw (h4 :: h5 :: h6 :: h7 :: concat (p_ents p))).
  rewrite !xorw_cons. set (x := xorw (concat (p_ents p))).
  apply Z.bits_inj. intros n. rewrite !Z.lxor_spec, Z.bits_0.
  destruct (Z.testbit h4 n), (Z.testbit h5 n), (Z.testbit h6 n), (Z.testbit h7 n), (Z.testbit x n); reflexivity.
Qed.

Lemma page_ent_in ns f k p r e : ginv ns f -> nth_error (f_pages f) k = Some p -> nth_error ns k = Some (Z.to_nat (p_nent p)) ->
  nth_error (firstn (Z.to_nat (p_nent p)) (p_ents p)) r = Some e -> entry_at ns (f_pages f) k r = Some e.
Proof. intros G P N E. rewrite nth_firstn in E. unfold entry_at. rewrite N, P. exact E. Qed.

(** The effect of rewriting page [k]. *)
Record closed_to (f f' : fte) (k : nat) (p p' : page) : Prop := {
  ct_f : exists d' lg', f' = f_setpages (f_setdisk f d' lg') (upd (f_pages f) k p');
  ct_ok : page_ok (f_plen f) p';
  ct_addr : p_addr p' = p_addr p;
  ct_nxt : p_nxt p' = p_nxt p;
  ct_nent : p_nent p' = p_nent p;
  ct_mod : p_mod p' = false;
  ct_ents : p_ents p' = map close_ent (firstn (Z.to_nat (p_nent p)) (p_ents p)) ++ skipn (Z.to_nat (p_nent p)) (p_ents p);
  ct_xor : xorw (skipn 4 (p_words p')) = 0;
  ct_img : on_disk f' p';
  ct_log : exists mid, f_log f' = f_log f ++ mid /\ f_disk f' = apply_log (f_disk f) mid /\
     Forall (wr_above (Z.of_nat (length (f_hdr f))) (dsize (f_disk f))) mid;
  ct_len : length (f_disk f') = length (f_disk f);
  ct_frame : forall a n, Z.of_nat (a + n) <= 2 * (p_addr p - 1) \/ 2 * (p_addr p - 1) + page_wlen (f_plen f) <= Z.of_nat a ->
    (forall e, In e (firstn (Z.to_nat (p_nent p)) (p_ents p)) -> e_idtyp e = 254 ->
       Z.of_nat (a + n) <= 2 * (e_addr e - 1) \/ 2 * (e_addr e - 1) + 2 <= Z.of_nat a) ->
    range (f_disk f') a n = range (f_disk f) a n;
  ct_phd : nth 0 (p_hd p') 0 = nth 0 (p_hd p) 0;
  ct_rhd : forall r e, nth_error (firstn (Z.to_nat (p_nent p)) (p_ents p)) r = Some e -> e_idtyp e = 254 ->
    range (f_disk f') (Z.to_nat (2 * (e_addr e - 1))) 2 = [mk_hd 255 (e_lng e); e_addr e]
}.

Lemma page_wlen_pos n : 0 < page_wlen n.
Proof. unfold page_wlen. lia. Qed.

Lemma close_page_mod junk ns f k p : ginv ns f -> nth_error (f_pages f) k = Some p -> nth_error ns k = Some (Z.to_nat (p_nent p)) ->
  p_nent p <= 256 -> f_ro f = false -> p_mod p = true ->
  exists f' p', close_page junk f k = Some f' /\ closed_to f f' k p p'.
Proof.
  intros G P N NB RO M. set (n := Z.to_nat (p_nent p)) in *.
  pose proof (page_nth_ok _ _ _ _ G P) as POK.
  assert (EIN : forall e, In e (firstn n (p_ents p)) -> exists r, entry_at ns (f_pages f) k r = Some e).
  { intros e He. apply In_nth_error in He. destruct He as [r Hr]. exists r. eapply page_ent_in; eassumption. }
  assert (HX : ext ns f OHdr = Some (0, Z.of_nat (length (f_hdr f)))) by reflexivity.
  destruct (close_entries_spec junk (Z.of_nat (length (f_hdr f))) (firstn n (p_ents p)) f RO) as (d' & lg' & E & LD & (mid & M1 & M2 & M3) & RG & RH).
  { intros e He. destruct (EIN e He) as [r Hr]. destruct (entry_shape _ _ _ _ _ G Hr) as [L W].
    pose proof (g_ents _ _ G _ _ _ Hr) as OKE. split; [exact OKE|]. pose proof (g_plen _ _ G). split; [lia|]. split; [exact W|].
    assert (X : ext ns f (ORec k r) = Some (2 * (e_addr e - 1), 2 * e_lng e)) by (cbn [ext]; rewrite Hr; reflexivity).
    pose proof (g_in _ _ G _ _ _ X). pose proof (g_size _ _ G). destruct OKE as (_ & ? & _).
    pose proof (g_apart _ _ G _ _ _ _ HX X ltac:(discriminate)) as AP. unfold apart in AP. cbn [fst snd] in AP. pose proof (g_hlen16 _ _ G). lia. }
  assert (XP : ext ns f (OPage k) = Some (2 * (p_addr p - 1), page_wlen (f_plen f))) by (cbn [ext]; rewrite P; reflexivity).
  pose proof (g_in _ _ G _ _ _ XP) as (X1 & X2 & X3). pose proof (g_size _ _ G) as SZ.
  set (p1 := mkpage (p_hd p) (map close_ent (firstn n (p_ents p)) ++ skipn n (p_ents p)) true).
  assert (OK1 : page_ok (f_plen f) p1).
  { destruct POK as (A & B & C & D). split; [exact A|]. split; [exact B|]. cbn [p1 p_ents]. split.
    - rewrite app_length, map_length, <- app_length, firstn_skipn. exact C.
    - rewrite <- (firstn_skipn n (p_ents p)) in D. apply Forall_app in D. destruct D as [D1 D2]. apply Forall_app. split; [|exact D2].
      apply Forall_forall. intros x Hx. apply in_map_iff in Hx. destruct Hx as (e & <- & He). rewrite Forall_forall in D1.
      destruct (D1 e He). apply close_ent_shape; assumption. }
  set (p2 := p_seth p1 6 (fold_left Z.lxor (skipn 4 (p_words p1)) (nth 6 (p_hd p1) 0))).
  assert (OK2 : page_ok (f_plen f) p2) by (apply page_ok_seth; exact OK1).
  assert (A2 : p_addr p2 = p_addr p) by (unfold p2; rewrite p_addr_seth by lia; reflexivity).
  pose proof (p_words_length _ _ OK2) as PL.
  set (g := f_setdisk f d' lg').
  assert (GW : f_write junk g (2 * (p_addr p2 - 1) + 1) (p_words p2) =
     Some (f_setdisk g (write_at d' (Z.to_nat (2 * (p_addr p2 - 1))) (p_words p2)) (lg' ++ [(2 * (p_addr p2 - 1) + 1, p_words p2)]))).
  { rewrite f_write_rw; [|exact RO|]. 2: { cbn [g f_disk f_setdisk]. unfold dsize in *. rewrite LD. lia. }
    cbn [g f_disk f_setdisk f_log]. rewrite Z.add_simpl_r. reflexivity. }
  eexists. exists (p_setmod p2 false). split.
  { unfold close_page. rewrite P. cbn [bind]. rewrite M. cbn [negb].
    replace (Z.of_nat EPP <? p_nent p) with false by (symmetry; apply Z.ltb_ge; unfold EPP; lia).
    cbv zeta. fold n. rewrite E. cbn [bind fst snd]. fold p1. fold p2. fold g. rewrite GW. cbn [bind]. reflexivity. }
  assert (LW : length (write_at d' (Z.to_nat (2 * (p_addr p2 - 1))) (p_words p2)) = length (f_disk f)).
  { unfold dsize in SZ. rewrite write_at_length by lia. rewrite PL, LD, A2. lia. }
  constructor.
  - eexists _, _. reflexivity.
  - exact OK2.
  - exact A2.
  - unfold p_nxt, p2, p_setmod, p_seth. cbn [p_hd]. rewrite upd_nthd. reflexivity.
  - unfold p_nent, p2, p_setmod, p_seth. cbn [p_hd]. rewrite upd_nthd. reflexivity.
  - reflexivity.
  - reflexivity.
  - change (p_words (p_setmod p2 false)) with (p_words p2). apply checksum_zero with (plen := f_plen f). exact OK1.
  - unfold on_disk. cbn [f_disk f_setpages f_setdisk f_plen g p_setmod p_addr p_words]. rewrite <- PL.
    change (p_addr (p_setmod p2 false)) with (p_addr p2). change (p_words (p_setmod p2 false)) with (p_words p2). apply range_write_same. unfold dsize in SZ. rewrite A2. lia.
  - exists (mid ++ [(2 * (p_addr p2 - 1) + 1, p_words p2)]). cbn [f_log f_disk f_setpages f_setdisk]. rewrite M1, <- app_assoc. split; [reflexivity|].
    rewrite apply_log_app, <- M2. split.
    + unfold apply_log. cbn [fold_left fst snd]. rewrite Z.add_simpl_r. reflexivity.
    + apply Forall_app. split; [exact M3|]. constructor; [|constructor]. unfold wr_above. cbn [fst snd]. rewrite PL, A2.
      pose proof (g_apart _ _ G _ _ _ _ HX XP ltac:(discriminate)) as AP. unfold apart in AP. cbn [fst snd] in AP. pose proof (g_hlen16 _ _ G). lia.
  - exact LW.
  - intros a m D1 D2. cbn [f_disk f_setpages f_setdisk]. unfold dsize in SZ. rewrite range_write_other.
    + apply RG. exact D2.
    + rewrite A2. lia.
    + rewrite PL, A2. lia.
  - cbn [p_setmod p2 p_seth p_hd p1]. rewrite upd_nthd. reflexivity.
  - intros r e Hr TE. cbn [f_disk f_setpages f_setdisk]. unfold dsize in SZ.
    assert (EX : forall r e, nth_error (firstn n (p_ents p)) r = Some e -> ext ns f (ORec k r) = Some (2 * (e_addr e - 1), 2 * e_lng e)).
    { intros r1 e1 H1. cbn [ext]. rewrite (page_ent_in _ _ _ _ _ _ G P N H1). reflexivity. }
    pose proof (EX r e Hr) as X0. pose proof (g_ents _ _ G _ _ _ (page_ent_in _ _ _ _ _ _ G P N Hr)) as (_ & LE & AE).
    pose proof (g_apart _ _ G _ _ _ _ X0 XP ltac:(discriminate)) as AP. unfold apart in AP. cbn [fst snd] in AP.
    pose proof (g_in _ _ G _ _ _ X0). rewrite range_write_other.
    + apply (RH r e Hr TE). intros j y Hy NJ. pose proof (EX j y Hy) as X4.
      pose proof (g_ents _ _ G _ _ _ (page_ent_in _ _ _ _ _ _ G P N Hy)) as (_ & LY & AY).
      pose proof (g_apart _ _ G _ _ _ _ X4 X0 ltac:(congruence)) as AP2. unfold apart in AP2. cbn [fst snd] in AP2. lia.
    + rewrite A2. lia.
    + rewrite PL, A2. lia.
Qed.

Lemma entry_at_closed ns d k p p' :
  nth_error d k = Some p -> nth_error ns k = Some (Z.to_nat (p_nent p)) ->
  p_ents p' = map close_ent (firstn (Z.to_nat (p_nent p)) (p_ents p)) ++ skipn (Z.to_nat (p_nent p)) (p_ents p) ->
  forall j s, entry_at ns (upd d k p') j s = if Nat.eqb j k then option_map close_ent (entry_at ns d j s) else entry_at ns d j s.
Proof.
  intros P N E j s. unfold entry_at. rewrite upd_nth.
  replace (k <? length d)%nat with true by (symmetry; apply Nat.ltb_lt; apply nth_error_Some; congruence). rewrite andb_true_r.
  destruct (Nat.eqb_spec j k) as [->|]; [|reflexivity]. rewrite N, P. set (n := Z.to_nat (p_nent p)) in *.
  destruct (Nat.ltb_spec s n); [|reflexivity]. rewrite E.
  destruct (Nat.lt_ge_cases s (length (p_ents p))).
  - rewrite nth_error_app1 by (rewrite map_length, firstn_length; lia). rewrite nth_error_map, nth_firstn.
    replace (s <? n)%nat with true by (symmetry; apply Nat.ltb_lt; lia). reflexivity.
  - rewrite (proj2 (nth_error_None (p_ents p) s)) by lia. apply nth_error_None. rewrite app_length, map_length, <- app_length, firstn_skipn. lia.
Qed.

Lemma used_closed ns d k p p' :
  nth_error d k = Some p -> nth_error ns k = Some (Z.to_nat (p_nent p)) ->
  p_ents p' = map close_ent (firstn (Z.to_nat (p_nent p)) (p_ents p)) ++ skipn (Z.to_nat (p_nent p)) (p_ents p) ->
  exists A B l, used ns d = A ++ l ++ B /\ used ns (upd d k p') = A ++ map close_ent l ++ B.
Proof.
  revert d k. induction ns as [|n ns IH]; intros d k P N E; [destruct k; discriminate|].
  destruct d as [|q d]; [destruct k; discriminate|]. destruct k; cbn [nth_error] in P, N.
  - injection P as ->. injection N as ->. cbn [upd used]. exists [], (used ns d), (firstn (Z.to_nat (p_nent p)) (p_ents p)). split; [reflexivity|].
    rewrite E. cbn [app]. f_equal. destruct (Nat.le_gt_cases (Z.to_nat (p_nent p)) (length (p_ents p))).
    + rewrite firstn_app, map_length, firstn_length.
      replace (Z.to_nat (p_nent p) - Nat.min (Z.to_nat (p_nent p)) (length (p_ents p)))%nat with 0%nat by lia.
      rewrite firstn_O, app_nil_r. apply firstn_all2. rewrite map_length, firstn_length. lia.
    + rewrite (@skipn_all2 _ (Z.to_nat (p_nent p)) (p_ents p)) by lia. rewrite app_nil_r. apply firstn_all2. rewrite map_length, firstn_length. lia.
  - destruct (IH d k P N E) as (A & B & l & U1 & U2). cbn [upd used]. exists (firstn n (p_ents q) ++ A), B, l.
    rewrite U1, U2, <- !app_assoc. auto.
Qed.

Lemma count_map t g l : (forall x, In x l -> t (g x) = t x) -> count t (map g l) = count t l.
Proof.
  induction l; intros H; [reflexivity|]. cbn [map]. rewrite !count_cons, H by (left; reflexivity).
  rewrite IHl; [reflexivity|]. intros x Hx. apply H. right. exact Hx.
Qed.

Lemma closed_ginv ns f f' k p p' : ginv ns f -> nth_error (f_pages f) k = Some p -> nth_error ns k = Some (Z.to_nat (p_nent p)) ->
  closed_to f f' k p p' -> ginv ns f'.
Proof.
  intros G P N C. destruct C as [(d' & lg' & ->) OK A X NE MF E _ _ _ LD FR PH RH].
  assert (K : (k <? length (f_pages f))%nat = true). { apply Nat.ltb_lt. apply nth_error_Some. congruence. }
  pose proof (entry_at_closed ns (f_pages f) k p p' P N E) as EA.
  assert (XX : forall o, ext ns (f_setpages (f_setdisk f d' lg') (upd (f_pages f) k p')) o = ext ns f o).
  { intros o. destruct o as [|j|j s]; cbn [ext f_hdr f_pages f_setpages f_setdisk f_plen]; [reflexivity| |].
    - rewrite upd_nth, K, andb_true_r. destruct (Nat.eqb_spec j k) as [->|]; [|reflexivity]. rewrite P. cbn [option_map]. rewrite A. reflexivity.
    - rewrite EA. destruct (Nat.eqb_spec j k) as [->|]; [|reflexivity]. destruct (entry_at ns (f_pages f) k s) as [e|] eqn:EE; [|reflexivity].
      cbn [option_map]. destruct (entry_shape _ _ _ _ _ G EE) as [L _]. pose proof (g_plen _ _ G).
      destruct (close_ent_fields e ltac:(lia)) as (-> & -> & _). reflexivity. }
  destruct (used_closed _ _ _ _ _ P N E) as (UA & UB & ul & U1 & U2).
  assert (UL : forall e, In e ul -> live (close_ent e) = live e).
  { intros e He. assert (I : In e (used ns (f_pages f))) by (rewrite U1; apply in_or_app; right; apply in_or_app; auto).
    apply In_entry_at in I. destruct I as (a & b & I). destruct (entry_shape _ _ _ _ _ G I) as [L _]. pose proof (g_plen _ _ G).
    apply close_ent_fields. lia. }
  pose proof (entry_shape ns f) as SH. pose proof G as G0.
  destruct G. constructor; cbn [f_setpages f_setdisk f_kp f_link f_tail f_plen f_hdr f_pages f_nxtadr f_disk f_modified];
    rewrite ?upd_length; auto.
  - apply Forall_upd; assumption.
  - cbn [f_disk f_setpages f_setdisk] in LD. unfold dsize in *. rewrite LD. exact g_size.
  - intros o s l. rewrite XX. apply g_in.
  - intros o o' x x'. rewrite !XX. apply g_apart.
  - intros j s e. rewrite EA. destruct (Nat.eqb_spec j k) as [->|]; [|apply g_ents].
    destruct (entry_at ns (f_pages f) k s) as [e0|] eqn:EE; [|discriminate]. cbn [option_map]. intros Q; injection Q as <-.
    destruct (SH k s e0 G0 EE) as [L _]. apply close_ent_ok; [eapply g_ents; eassumption|lia].
  - rewrite g_nrec, U1, U2, !count_app, count_map by exact UL. reflexivity.
  - rewrite g_nxtn, U1, U2, !app_length, map_length. reflexivity.
  - intros q. rewrite upd_nth, K, andb_true_r. destruct (Nat.eqb_spec 0 k) as [<-|]; [|apply g_first].
    intros Q; injection Q as <-. rewrite A. apply g_first. exact P.
  - intros j q q'. rewrite !upd_nth, K, !andb_true_r. destruct (Nat.eqb_spec j k) as [->|]; destruct (Nat.eqb_spec (S k) k); try lia.
    + intros Q Q'. injection Q as <-. rewrite X. eapply g_chain; eassumption.
    + destruct (Nat.eqb_spec (S j) k) as [<-|]; [|apply g_chain]. intros Q Q'. injection Q' as <-. rewrite A. eapply g_chain; eassumption.
  - intros q. rewrite upd_nth, K, andb_true_r. destruct (Nat.eqb_spec (length (f_pages f) - 1) k) as [<-|]; [|apply g_lastp].
    intros Q; injection Q as <-. rewrite X. apply g_lastp. exact P.
  - rename g_tile into T. constructor; cbn [f_setpages f_setdisk f_plen f_hdr f_pages f_disk f_modified].
    + intros y Hy. destruct (t_cover _ _ T y Hy) as (o & s & l & O & B0). exists o, s, l. rewrite XX. auto.
    + apply (t_hdr _ _ T).
    + apply Forall_upd; [apply (t_page _ _ T)|]. unfold phd. rewrite PH. apply (tile_page _ _ _ _ T P).
    + cbn [f_setpages f_setdisk f_disk] in FR, RH.
      assert (XP : ext ns f (OPage k) = Some (2 * (p_addr p - 1), page_wlen (f_plen f))) by (cbn [ext]; rewrite P; reflexivity).
      assert (KEEP : forall j s x, entry_at ns (f_pages f) j s = Some x -> (j = k -> e_idtyp x <> 254) ->
        range d' (Z.to_nat (2 * (e_addr x - 1))) 2 = range (f_disk f) (Z.to_nat (2 * (e_addr x - 1))) 2).
      { intros j s x EX NK. assert (X0 : ext ns f (ORec j s) = Some (2 * (e_addr x - 1), 2 * e_lng x)) by (cbn [ext]; rewrite EX; reflexivity).
        pose proof (g_ents _ _ _ EX) as (_ & LE & AE). pose proof (g_in _ _ _ X0). apply FR.
        - pose proof (g_apart _ _ _ _ X0 XP ltac:(discriminate)) as AP. unfold apart in AP. cbn [fst snd] in AP. lia.
        - intros y Hy TY. apply In_nth_error in Hy. destruct Hy as [i Hi]. pose proof (page_ent_in _ _ _ _ _ _ G0 P N Hi) as EY.
          assert (X1 : ext ns f (ORec k i) = Some (2 * (e_addr y - 1), 2 * e_lng y)) by (cbn [ext]; rewrite EY; reflexivity).
          assert (DN : ORec j s <> ORec k i). { intros Q. injection Q as -> ->. rewrite EX in EY. injection EY as ->. apply NK; auto. }
          pose proof (g_apart _ _ _ _ X0 X1 DN) as AP. unfold apart in AP. cbn [fst snd] in AP. pose proof (g_ents _ _ _ EY) as (_ & LY & AY). lia. }
      intros j s x q. rewrite EA, upd_nth, K, andb_true_r. destruct (Nat.eqb_spec j k) as [->|J].
      * destruct (entry_at ns (f_pages f) k s) as [e0|] eqn:EE; [|discriminate]. cbn [option_map]. intros Q _. injection Q as <-.
        destruct (SH k s e0 G0 EE) as [L W]. destruct (t_rec _ _ T _ _ _ _ EE P) as [R1 _].
        unfold close_ent. destruct (Z.eqb_spec (e_idtyp e0) 254) as [TE|TE].
        -- destruct (e_upd0 e0 255 (e_lng e0) ltac:(lia)) as (T1 & T2 & T3). rewrite e_lng_mod in T2. change (255 mod 256) with 255 in T1.
           split; [|rewrite T1; discriminate]. exists 255. rewrite T1, T2, T3. split; [lia|]. split; [|split; [unfold live; rewrite T1; discriminate|reflexivity]].
           destruct (entry_at_page _ _ _ _ _ EE) as (n0 & p0 & N0 & P0 & R0 & E0). apply (RH s e0); [|exact TE].
           rewrite nth_firstn. replace p0 with p in * by congruence. assert (n0 = Z.to_nat (p_nent p)) as -> by congruence. replace (s <? Z.to_nat (p_nent p))%nat with true by (symmetry; apply Nat.ltb_lt; exact R0). exact E0.
        -- split; [|congruence]. apply rhd_same with (f_disk f); [|exact R1]. apply (KEEP k s e0 EE). auto.
      * intros EX Q. destruct (t_rec _ _ T _ _ _ _ EX Q) as [R1 R2]. split; [|exact R2]. apply rhd_same with (f_disk f); [|exact R1]. apply (KEEP j s x EX). congruence.
Qed.
