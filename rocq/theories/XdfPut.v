(** c_xdfput: the stages preserve the invariant. *)
From Coq Require Import ZArith List Lia Bool.
From Verif Require Import Bits Handles WaFile Xdf XdfLib XdfInv XdfDel.
Import ListNotations.
Open Scope Z_scope.

(** * A page whose header words or flag change, entries kept *)
Definition near (p p' : page) : Prop := p_ents p' = p_ents p /\ p_addr p' = p_addr p /\ p_nxt p' = p_nxt p /\
  nth 0 (p_hd p') 0 = nth 0 (p_hd p) 0 /\ (p_mod p = true -> p_mod p' = true).

Lemma ginv_page ns f k p p' : ginv ns f -> nth_error (f_pages f) k = Some p -> near p p' -> page_ok (f_plen f) p' ->
  ginv ns (f_setpages f (upd (f_pages f) k p')).
Proof.
  intros G P (NE & NA & NX & N0 & NM) OK.
  assert (K : (k <? length (f_pages f))%nat = true). { apply Nat.ltb_lt. apply nth_error_Some. congruence. }
  assert (X : forall o, ext ns (f_setpages f (upd (f_pages f) k p')) o = ext ns f o).
  { intros o. destruct o as [|j|j s]; cbn [ext f_hdr f_pages f_setpages f_plen]; [reflexivity| |].
    - rewrite upd_nth, K, andb_true_r. destruct (Nat.eqb_spec j k) as [->|]; [|reflexivity]. rewrite P. cbn [option_map]. rewrite NA. reflexivity.
    - rewrite (entry_at_upd_same ns _ k p p' P NE). reflexivity. }
  destruct G. constructor; cbn [f_setpages f_kp f_link f_tail f_plen f_hdr f_pages f_nxtadr f_disk f_modified];
    rewrite ?upd_length; auto.
  - apply Forall_upd; assumption.
  - intros o s l. rewrite X. apply g_in.
  - intros o o' x x'. rewrite !X. apply g_apart.
  - intros j s x. rewrite (entry_at_upd_same ns _ k p p' P NE). apply g_ents.
  - rewrite (used_upd_same ns _ k p p' P NE). assumption.
  - rewrite (used_upd_same ns _ k p p' P NE). assumption.
  - intros q. rewrite upd_nth, K, andb_true_r. destruct (Nat.eqb_spec 0 k) as [<-|]; [|apply g_first].
    intros Q. injection Q as <-. rewrite NA. apply g_first. exact P.
  - intros j a b. rewrite !upd_nth, K, !andb_true_r. intros Qa Qb.
    assert (exists a0, nth_error (f_pages f) j = Some a0 /\ p_nxt a = p_nxt a0) as (a0 & Ha & Na).
    { destruct (Nat.eqb_spec j k) as [->|]; [injection Qa as <-; exists p; auto|exists a; auto]. }
    assert (exists b0, nth_error (f_pages f) (S j) = Some b0 /\ p_addr b = p_addr b0) as (b0 & Hb & Nb).
    { destruct (Nat.eqb_spec (S j) k) as [<-|]; [injection Qb as <-; exists p; auto|exists b; auto]. }
    rewrite Na, Nb. apply (g_chain j); assumption.
  - intros q. rewrite upd_nth, K, andb_true_r.
    destruct (Nat.eqb_spec (length (f_pages f) - 1) k) as [Q|]; [|apply g_lastp].
    intros R. injection R as <-. rewrite NX. apply (g_lastp p). rewrite Q. exact P.
  - rename g_tile into T. constructor; cbn [f_setpages f_plen f_hdr f_pages f_disk f_modified].
    + intros y Hy. destruct (t_cover _ _ T y Hy) as (o & s & l & O & B0). exists o, s, l. rewrite X. auto.
    + apply (t_hdr _ _ T).
    + apply Forall_upd; [apply (t_page _ _ T)|]. unfold phd. rewrite N0. apply (tile_page _ _ _ _ T P).
    + intros j s x q. rewrite (entry_at_upd_same ns _ k p p' P NE), upd_nth, K, andb_true_r. intros EX Q.
      assert (exists q0, nth_error (f_pages f) j = Some q0 /\ (p_mod q0 = true -> p_mod q = true)) as (q0 & Q0 & QM).
      { destruct (Nat.eqb_spec j k) as [->|]; [injection Q as <-; exists p; auto|exists q; auto]. }
      destruct (t_rec _ _ T _ _ _ _ EX Q0) as [R1 R2]. split; [exact R1|]. intros H. destruct (R2 H). auto.
Qed.

Lemma ginv_cur ns f c : ginv ns f -> ginv ns (f_setcur f c).
Proof. intros []. destruct g_tile. constructor; try assumption. constructor; assumption. Qed.
Lemma gimg_cur sk f c : gimg sk f -> gimg sk (f_setcur f c).
Proof. intros G. exact G. Qed.
Lemma ginv_tgt ns f t m v : ginv ns f -> ginv ns (f_settgt f t m v).
Proof. intros []. destruct g_tile. constructor; try assumption. constructor; assumption. Qed.

Lemma near_seth p k v : k <> 0%nat -> k <> 1%nat -> k <> 4%nat -> near p (p_seth p k v).
Proof.
  intros C A B. unfold near, p_addr, p_nxt, p_seth. cbn [p_ents p_hd p_mod]. rewrite !upd_nthd.
  replace (Nat.eqb 0 k) with false by (symmetry; apply Nat.eqb_neq; lia).
  replace (Nat.eqb 1 k) with false by (symmetry; apply Nat.eqb_neq; lia).
  replace (Nat.eqb 4 k) with false by (symmetry; apply Nat.eqb_neq; lia). auto.
Qed.

Lemma p_nent_seth5 p v : length (p_hd p) = 8%nat -> p_nent (p_seth p 5 v) = w32 v.
Proof. intros H. unfold p_nent, p_seth. cbn [p_hd]. rewrite upd_nthd, H. reflexivity. Qed.
Lemma p_nxt_seth4 p v : length (p_hd p) = 8%nat -> p_nxt (p_seth p 4 v) = w32 v.
Proof. intros H. unfold p_nxt, p_seth. cbn [p_hd]. rewrite upd_nthd, H. reflexivity. Qed.

(** * Appending an entry *)
Lemma list_last {A} (l : list A) k x : nth_error l k = Some x -> k = (length l - 1)%nat -> exists l0, l = l0 ++ [x] /\ length l0 = k.
Proof.
  intros H K. destruct (nth_error_split l k H) as (l1 & l2 & E & L). subst l.
  rewrite app_length in K. cbn [length] in K. destruct l2; [|cbn [length] in K; lia]. exists l1. auto.
Qed.

Lemma upd_last {A} (l0 : list A) x v : upd (l0 ++ [x]) (length l0) v = l0 ++ [v].
Proof. apply upd_app2. Qed.

Lemma firstn_upd_S {A} (l : list A) r v : (r < length l)%nat -> firstn (S r) (upd l r v) = firstn r l ++ [v].
Proof.
  revert r. induction l; intros r H; [cbn in H; lia|]. destruct r; cbn [upd firstn app]; [reflexivity|].
  cbn [length] in H. f_equal. apply IHl. lia.
Qed.

Lemma used_snoc ns d k r p p' e1 : length ns = length d -> k = (length d - 1)%nat -> nth_error ns k = Some r ->
  nth_error d k = Some p -> (r < length (p_ents p))%nat -> p_ents p' = upd (p_ents p) r e1 ->
  used (upd ns k (S r)) (upd d k p') = used ns d ++ [e1].
Proof.
  intros L K N P R E.
  destruct (list_last d k p P K) as (d0 & -> & Ld).
  assert (K' : k = (length ns - 1)%nat) by lia.
  destruct (list_last ns k r N K') as (n0 & -> & Ln).
  rewrite !app_length in L. cbn [length] in L.
  rewrite <- Ln at 1. rewrite <- Ld. rewrite !upd_last.
  rewrite !used_app by lia. cbn [used]. rewrite E, firstn_upd_S by exact R.
  rewrite !app_nil_r, app_assoc. reflexivity.
Qed.

Lemma entry_at_snoc ns d k r p p' e1 : nth_error ns k = Some r ->
  nth_error d k = Some p -> (r < length (p_ents p))%nat -> p_ents p' = upd (p_ents p) r e1 -> forall j s,
  entry_at (upd ns k (S r)) (upd d k p') j s = if Nat.eqb j k && Nat.eqb s r then Some e1 else entry_at ns d j s.
Proof.
  intros N P R E j s. unfold entry_at. rewrite !upd_nth.
  replace (k <? length ns)%nat with true by (symmetry; apply Nat.ltb_lt; apply nth_error_Some; congruence).
  replace (k <? length d)%nat with true by (symmetry; apply Nat.ltb_lt; apply nth_error_Some; congruence).
  rewrite !andb_true_r. destruct (Nat.eqb_spec j k) as [->|]; cbn [andb]; [|reflexivity].
  rewrite N, P, E, upd_nth. replace (r <? length (p_ents p))%nat with true by (symmetry; apply Nat.ltb_lt; lia).
  rewrite andb_true_r. destruct (Nat.eqb_spec s r) as [->|].
  - replace (r <? S r)%nat with true by (symmetry; apply Nat.ltb_lt; lia). reflexivity.
  - destruct (Nat.ltb_spec s r).
    + replace (s <? S r)%nat with true by (symmetry; apply Nat.ltb_lt; lia). reflexivity.
    + replace (s <? S r)%nat with false by (symmetry; apply Nat.ltb_ge; lia). reflexivity.
Qed.

(** * The final stage *)
Definition rec_hdr (f : fte) (rewrite to_end : bool) (nwords : Z) : list Z :=
  let h1 := hadd (f_hdr f) H_NREC 1 in
  let h2 := if to_end then
              let h := hadd (hadd h1 H_NXTN 1) H_FSIZ (nwords / 2) in
              hset h H_NBIG (if hget h H_NBIG <? nwords / 2 then nwords / 2 else hget h H_NBIG)
            else h1 in
  if rewrite then hadd h2 H_NRWR 1 else h2.

Definition rec_file (f : fte) (k r : nat) (p : page) (e1 : list Z) (rewrite to_end : bool) (waddr nwords : Z) (ws : list Z) : fte :=
  let h3 := rec_hdr f rewrite to_end nwords in
  f_setmod (f_setnxt (f_sethdr (f_setpages (f_setdisk f (write_at (f_disk f) (Z.to_nat (waddr - 1)) ws) (f_log f ++ [(waddr, ws)]))
      (upd (f_pages f) k (p_setmod (p_setent p r e1) true))) h3) (if to_end then 2 * hget h3 H_FSIZ + 1 else f_nxtadr f)) true.

Lemma rec_hdr_length f b c n : length (rec_hdr f b c n) = length (f_hdr f).
Proof. unfold rec_hdr. destruct b, c; cbv zeta; rewrite ?hadd_length, ?hset_length, ?hadd_length; reflexivity. Qed.
Lemma rec_hdr_words f b c n : all_words (f_hdr f) -> all_words (rec_hdr f b c n).
Proof. intros. unfold rec_hdr. destruct b, c; cbv zeta; repeat first [apply hadd_words|apply hset_words]; assumption. Qed.
Lemma rec_hdr_lng f b c n : (16 <= length (f_hdr f))%nat -> h_lng (rec_hdr f b c n) = h_lng (f_hdr f).
Proof.
  intros. unfold rec_hdr, h_lng. destruct b, c; cbv zeta; f_equal; hs; reflexivity.
Qed.
Lemma rec_hdr_lprm f b c n : (16 <= length (f_hdr f))%nat -> h_lprm (rec_hdr f b c n) = h_lprm (f_hdr f).
Proof.
  intros. unfold rec_hdr, h_lprm. destruct b, c; cbv zeta; hs; reflexivity.
Qed.
Lemma rec_hdr_nbd f b c n : (16 <= length (f_hdr f))%nat -> hget (rec_hdr f b c n) H_NBD = hget (f_hdr f) H_NBD.
Proof. intros. unfold rec_hdr. destruct b, c; cbv zeta; hs; reflexivity. Qed.
Lemma rec_hdr_rwflg f b c n : (16 <= length (f_hdr f))%nat -> hget (rec_hdr f b c n) H_RWFLG = hget (f_hdr f) H_RWFLG.
Proof. intros. unfold rec_hdr. destruct b, c; cbv zeta; hs; reflexivity. Qed.
Lemma rec_hdr_nrec f b c n : (16 <= length (f_hdr f))%nat -> hget (rec_hdr f b c n) H_NREC = w32 (hget (f_hdr f) H_NREC + 1).
Proof. intros. unfold rec_hdr. destruct b, c; cbv zeta; hs; reflexivity. Qed.
Lemma rec_hdr_nxtn f b c n : (16 <= length (f_hdr f))%nat ->
  hget (rec_hdr f b c n) H_NXTN = if c then w32 (hget (f_hdr f) H_NXTN + 1) else hget (f_hdr f) H_NXTN.
Proof. intros. unfold rec_hdr. destruct b, c; cbv zeta; hs; reflexivity. Qed.
Lemma rec_hdr_fsiz f b c n : (16 <= length (f_hdr f))%nat ->
  hget (rec_hdr f b c n) H_FSIZ = if c then w32 (hget (f_hdr f) H_FSIZ + n / 2) else hget (f_hdr f) H_FSIZ.
Proof. intros. unfold rec_hdr. destruct b, c; cbv zeta; hs; reflexivity. Qed.

Lemma rec_hdr_01 f b c n k : (16 <= length (f_hdr f))%nat -> (k < 2)%nat -> hget (rec_hdr f b c n) k = hget (f_hdr f) k.
Proof. intros. assert (K : k = 0%nat \/ k = 1%nat) by lia. destruct K as [-> | ->]; unfold rec_hdr; destruct b, c; cbv zeta; hs; reflexivity. Qed.

Lemma range_write_firstn d a ws n : (a <= length d)%nat -> (n <= length ws)%nat -> range (write_at d a ws) a n = firstn n ws.
Proof.
  intros A N. rewrite <- (range_write_same d a ws A) at 2. unfold range. rewrite firstn_firstn. f_equal. lia.
Qed.

(** The entry written. *)
Definition entry_for (e e1 : list Z) (idt lng addr : Z) : Prop :=
  length e1 = length e /\ all_words e1 /\ e_idtyp e1 = idt /\ e_lng e1 = lng /\ e_addr e1 = addr.

Lemma upd_chain_facts f k p p' :
  nth_error (f_pages f) k = Some p -> p_addr p' = p_addr p -> p_nxt p' = p_nxt p ->
  (forall j a b, nth_error (f_pages f) j = Some a -> nth_error (f_pages f) (S j) = Some b -> p_nxt a = p_addr b) ->
  (forall a, nth_error (f_pages f) (length (f_pages f) - 1) = Some a -> p_nxt a = 0) ->
  (forall j a b, nth_error (upd (f_pages f) k p') j = Some a -> nth_error (upd (f_pages f) k p') (S j) = Some b -> p_nxt a = p_addr b) /\
  (forall a, nth_error (upd (f_pages f) k p') (length (f_pages f) - 1) = Some a -> p_nxt a = 0) /\
  (forall v, (forall a, nth_error (f_pages f) 0 = Some a -> p_addr a = v) -> forall a, nth_error (upd (f_pages f) k p') 0 = Some a -> p_addr a = v).
Proof.
  intros P NA NX CH LA.
  assert (K : (k <? length (f_pages f))%nat = true). { apply Nat.ltb_lt. apply nth_error_Some. congruence. }
  split; [|split].
  - intros j a b. rewrite !upd_nth, K, !andb_true_r. intros Qa Qb.
    assert (exists a0, nth_error (f_pages f) j = Some a0 /\ p_nxt a = p_nxt a0) as (a0 & Ha & Na).
    { destruct (Nat.eqb_spec j k) as [->|]; [injection Qa as <-; exists p; auto|exists a; auto]. }
    assert (exists b0, nth_error (f_pages f) (S j) = Some b0 /\ p_addr b = p_addr b0) as (b0 & Hb & Nb).
    { destruct (Nat.eqb_spec (S j) k) as [<-|]; [injection Qb as <-; exists p; auto|exists b; auto]. }
    rewrite Na, Nb. apply (CH j); assumption.
  - intros q. rewrite upd_nth, K, andb_true_r.
    destruct (Nat.eqb_spec (length (f_pages f) - 1) k) as [Q|]; [|apply LA].
    intros R. injection R as <-. rewrite NX. apply (LA p). rewrite Q. exact P.
  - intros v FI q. rewrite upd_nth, K, andb_true_r. destruct (Nat.eqb_spec 0 k) as [<-|]; [|apply FI].
    intros Q. injection Q as <-. rewrite NA. apply FI. exact P.
Qed.

Lemma nth_error_upd_le {A} (P : A -> Prop) l k v : Forall P l -> P v -> Forall P (upd l k v).
Proof. apply Forall_upd. Qed.

Definition owner_dec (a b : owner) : {a = b} + {a <> b}.
Proof. decide equality; apply Nat.eq_dec. Defined.

Definition ext_in (E : owner -> option (Z * Z)) (top : Z) : Prop :=
  forall o s l, E o = Some (s, l) -> 0 <= s /\ 0 < l /\ s + l <= top.
Definition ext_apart (E : owner -> option (Z * Z)) : Prop :=
  forall o o' x x', E o = Some x -> E o' = Some x' -> o <> o' -> apart x x'.

Lemma ext_add (E E' : owner -> option (Z * Z)) o0 a n top :
  (forall o, o <> o0 -> E' o = E o) -> E' o0 = Some (a, n) -> ext_in E top -> ext_apart E ->
  0 <= a -> top <= a -> 0 < n -> ext_in E' (a + n) /\ ext_apart E'.
Proof.
  intros S N I A A0 T P.
  assert (NEW : forall o x, E o = Some x -> apart (a, n) x /\ apart x (a, n)).
  { intros o x Q. destruct x as [s l]. pose proof (I _ _ _ Q). unfold apart. cbn [fst snd]. lia. }
  split.
  - intros o s l Q. destruct (owner_dec o o0) as [->|D].
    + rewrite N in Q. assert (s = a /\ l = n) as [-> ->] by (split; congruence). lia.
    + rewrite S in Q by exact D. pose proof (I _ _ _ Q). lia.
  - intros o o' x x' Q Q' D. destruct (owner_dec o o0) as [->|D1]; destruct (owner_dec o' o0) as [->|D2].
    + congruence.
    + rewrite N in Q. rewrite S in Q' by exact D2. assert (x = (a, n)) as -> by congruence. apply (NEW _ _ Q').
    + rewrite N in Q'. rewrite S in Q by exact D1. assert (x' = (a, n)) as -> by congruence. apply (NEW _ _ Q).
    + rewrite S in Q by exact D1. rewrite S in Q' by exact D2. eapply A; eassumption.
Qed.

Lemma ext_add_cover (E E' : owner -> option (Z * Z)) o0 a n top top' :
  (forall o, o <> o0 -> E' o = E o) -> E' o0 = Some (a, n) -> E o0 = None -> a = top -> top' = top + n ->
  (forall x, 0 <= x < top -> exists o s l, E o = Some (s, l) /\ s <= x < s + l) ->
  forall x, 0 <= x < top' -> exists o s l, E' o = Some (s, l) /\ s <= x < s + l.
Proof.
  intros S N N0 -> -> C x Hx. destruct (Z.lt_ge_cases x top) as [H|H].
  - destruct (C x ltac:(lia)) as (o & s & l & A & B). exists o, s, l. rewrite S; [auto|]. intros ->. congruence.
  - exists o0, top, n. split; [exact N|lia].
Qed.

(** Record headers of the other entries when one entry of page [k] changes. *)
Lemma rhd_apart ns f k r e s l d' : ginv ns f -> entry_at ns (f_pages f) k r = Some e -> rhd (f_disk f) e ->
  apart (2 * (e_addr e - 1), 2 * e_lng e) (s, l) ->
  (forall a n, Z.of_nat (a + n) <= s \/ s + l <= Z.of_nat a -> range d' a n = range (f_disk f) a n) -> rhd d' e.
Proof.
  intros G E R AP FR. apply rhd_same with (f_disk f); [|exact R]. apply FR.
  assert (X : ext ns f (ORec k r) = Some (2 * (e_addr e - 1), 2 * e_lng e)) by (cbn [ext]; rewrite E; reflexivity).
  pose proof (g_in _ _ G _ _ _ X). pose proof (g_ents _ _ G _ _ _ E) as (_ & L & _). unfold apart in AP. cbn [fst snd] in AP. lia.
Qed.

(** Append. *)
Lemma rec_append ns f k r p e e1 rw nwords ws idt : ginv ns f ->
  k = (length (f_pages f) - 1)%nat -> nth_error ns k = Some r -> nth_error (f_pages f) k = Some p ->
  nth_error (p_ents p) r = Some e -> entry_for e e1 idt (nwords / 2) (hget (f_hdr f) H_FSIZ + 1) ->
  1 <= idt <= 125 -> nwords mod 2 = 0 -> 2 <= nwords -> Z.of_nat (length ws) = nwords ->
  firstn 2 ws = [mk_hd idt (nwords / 2); hget (f_hdr f) H_FSIZ + 1] ->
  2 * hget (f_hdr f) H_FSIZ + nwords + 1 < 2 ^ 31 ->
  ginv (upd ns k (S r)) (rec_file f k r p e1 rw true (f_nxtadr f) nwords ws).
Proof.
  intros G K N P E (L1 & W1 & T1 & T2 & T3) I Ev Nw Lw F2 Sm.
  pose proof (g_hlen16 _ _ G) as H16. pose proof (page_nth_ok _ _ _ _ G P) as POK.
  pose proof (hget_word _ _ H_FSIZ G) as FW.
  assert (R : (r < length (p_ents p))%nat) by (apply nth_error_Some; congruence).
  assert (R2 : (r < EPP)%nat) by (destruct POK as (_ & _ & Q & _); lia).
  assert (EQ : nwords = 2 * (nwords / 2)) by (pose proof (Z.div_mod nwords 2 ltac:(lia)); lia).
  set (F' := rec_file f k r p e1 rw true (f_nxtadr f) nwords ws).
  set (p' := p_setmod (p_setent p r e1) true).
  assert (FS : hget (f_hdr F') H_FSIZ = hget (f_hdr f) H_FSIZ + nwords / 2).
  { unfold F', rec_file. cbn [f_hdr f_setmod f_setnxt f_sethdr]. rewrite rec_hdr_fsiz by exact H16. apply w32_id. unfold word_ok in *. lia. }
  assert (PE : p_ents p' = upd (p_ents p) r e1) by reflexivity.
  pose proof (entry_at_snoc ns (f_pages f) k r p p' e1 N P R PE) as EA.
  assert (EN : entry_at ns (f_pages f) k r = None).
  { unfold entry_at. rewrite N, P. rewrite (proj2 (Nat.ltb_ge r r)) by lia. reflexivity. }
  assert (X1 : forall o, o <> ORec k r -> ext (upd ns k (S r)) F' o = ext ns f o).
  { intros o D. destruct o as [|j|j s]; cbn [ext F' rec_file f_setmod f_setnxt f_sethdr f_setpages f_setdisk f_hdr f_pages f_plen].
    - rewrite rec_hdr_length. reflexivity.
    - fold p'. rewrite upd_nth. destruct (Nat.eqb_spec j k) as [->|]; cbn [andb]; [|reflexivity].
      destruct (k <? length (f_pages f))%nat; [|reflexivity]. rewrite P. reflexivity.
    - fold p'. rewrite EA. destruct (Nat.eqb_spec j k), (Nat.eqb_spec s r); cbn [andb]; try reflexivity. congruence. }
  assert (X2 : ext (upd ns k (S r)) F' (ORec k r) = Some (2 * hget (f_hdr f) H_FSIZ, nwords)).
  { cbn [ext F' rec_file f_setmod f_setnxt f_sethdr f_setpages f_setdisk f_hdr f_pages f_plen]. fold p'. rewrite EA, !Nat.eqb_refl.
    cbn [andb option_map]. rewrite T2, T3. f_equal. f_equal; lia. }
  destruct (ext_add (ext ns f) (ext (upd ns k (S r)) F') (ORec k r) (2 * hget (f_hdr f) H_FSIZ) nwords (2 * hget (f_hdr f) H_FSIZ)
    X1 X2 (g_in _ _ G) (g_apart _ _ G)) as [XI XA]; try (unfold word_ok in FW; lia).
  assert (US : used (upd ns k (S r)) (upd (f_pages f) k p') = used ns (f_pages f) ++ [e1])
    by (apply (used_snoc ns _ k r p); auto; apply (g_ns _ _ G)).
  assert (LV : live e1 = true) by (unfold live; rewrite T1; apply andb_true_intro; split; apply Z.leb_le; lia).
  assert (UL : (length (used ns (f_pages f)) + 1 <= 1024 * 256)%nat).
  { pose proof (used_length_le (upd ns k (S r)) (upd (f_pages f) k p')) as U. rewrite US, !upd_length, app_length in U. cbn [length] in U.
    eapply Nat.le_trans; [apply U|]. apply (g_ns _ _ G). apply Forall_upd; [apply (g_nsb _ _ G)|lia].
    pose proof (g_np _ _ G) as NP. unfold EPP, MAX_DIR_PAGES in *. lia. }
  destruct (upd_chain_facts f k p p' P eq_refl eq_refl (g_chain _ _ G) (g_lastp _ _ G)) as (C1 & C2 & C3).
  constructor.
  - apply (g_kp _ _ G).
  - apply (g_link _ _ G).
  - apply (g_tail _ _ G).
  - apply (g_plen _ _ G).
  - cbn [F' rec_file f_setmod f_setnxt f_sethdr f_hdr]. rewrite rec_hdr_length, rec_hdr_lng by exact H16. apply (g_hlen _ _ G).
  - cbn [F' rec_file f_setmod f_setnxt f_sethdr f_hdr]. rewrite rec_hdr_length. exact H16.
  - cbn [F' rec_file f_setmod f_setnxt f_sethdr f_hdr]. apply rec_hdr_words. apply (g_hw _ _ G).
  - cbn [F' rec_file f_setmod f_setnxt f_sethdr f_setpages f_setdisk f_hdr f_plen]. rewrite rec_hdr_lprm by exact H16. apply (g_lprm _ _ G).
  - cbn [F' rec_file f_setmod f_setnxt f_sethdr f_setpages f_pages]. rewrite upd_length. apply (g_np _ _ G).
  - cbn [F' rec_file f_setmod f_setnxt f_sethdr f_setpages f_pages f_hdr]. rewrite upd_length, rec_hdr_nbd by exact H16. apply (g_nbd _ _ G).
  - cbn [F' rec_file f_setmod f_setnxt f_sethdr f_setpages f_setdisk f_pages f_plen]. apply Forall_upd; [apply (g_pages _ _ G)|].
    apply page_ok_setmod, page_ok_setent; auto. rewrite L1. destruct POK as (_ & _ & _ & Q). rewrite Forall_forall in Q.
    apply Q. eapply nth_error_In; eassumption.
  - cbn [F' rec_file f_setmod f_setnxt f_sethdr f_setpages f_pages]. rewrite !upd_length. apply (g_ns _ _ G).
  - apply Forall_upd; [apply (g_nsb _ _ G)|lia].
  - rewrite FS. cbn [F' rec_file f_setmod f_setnxt f_nxtadr]. rewrite rec_hdr_fsiz by exact H16.
    rewrite w32_id by (unfold word_ok in *; lia). reflexivity.
  - rewrite FS. cbn [F' rec_file f_setmod f_setnxt f_sethdr f_setpages f_setdisk f_disk].
    rewrite (g_nxt _ _ G). pose proof (g_size _ _ G). unfold dsize in *. rewrite write_at_length by lia. lia.
  - rewrite FS. lia.
  - rewrite FS. replace (2 * (hget (f_hdr f) H_FSIZ + nwords / 2)) with (2 * hget (f_hdr f) H_FSIZ + nwords) by lia. exact XI.
  - exact XA.
  - cbn [F' rec_file f_setmod f_setnxt f_sethdr f_setpages f_pages]. fold p'. intros j s x. rewrite EA.
    destruct (Nat.eqb j k && Nat.eqb s r); [|apply (g_ents _ _ G)]. intros Q. injection Q as <-.
    unfold entry_ok. rewrite T1, T2, T3. unfold word_ok in FW. lia.
  - cbn [F' rec_file f_setmod f_setnxt f_sethdr f_setpages f_pages f_hdr]. fold p'. rewrite US, rec_hdr_nrec by exact H16.
    rewrite (g_nrec _ _ G), count_app, count_cons, LV. pose proof (count_le live (used ns (f_pages f))).
    change (count live []) with 0. rewrite w32_id by (unfold word_ok; lia). lia.
  - cbn [F' rec_file f_setmod f_setnxt f_sethdr f_setpages f_pages f_hdr]. fold p'. rewrite US, rec_hdr_nxtn by exact H16.
    rewrite (g_nxtn _ _ G), app_length. cbn [length]. rewrite w32_id by (unfold word_ok; lia). lia.
  - cbn [F' rec_file f_setmod f_setnxt f_sethdr f_setpages f_pages f_hdr]. fold p'. rewrite rec_hdr_lng by exact H16.
    apply C3. apply (g_first _ _ G).
  - exact C1.
  - cbn [F' rec_file f_setmod f_setnxt f_sethdr f_setpages f_pages]. fold p'. rewrite upd_length. exact C2.
  - pose proof (g_tile _ _ G) as T. pose proof (g_size _ _ G) as SZ. unfold dsize in SZ. pose proof (g_nxt _ _ G) as NXT.
    assert (FR : forall a n, Z.of_nat (a + n) <= 2 * hget (f_hdr f) H_FSIZ \/ 2 * hget (f_hdr f) H_FSIZ + nwords <= Z.of_nat a ->
      range (f_disk F') a n = range (f_disk f) a n).
    { intros a n H. cbn [F' rec_file f_setmod f_setnxt f_sethdr f_setpages f_setdisk f_disk]. unfold word_ok in FW. apply range_write_other; lia. }
    constructor.
    + apply (ext_add_cover (ext ns f) _ (ORec k r) (2 * hget (f_hdr f) H_FSIZ) nwords (2 * hget (f_hdr f) H_FSIZ)); auto.
      * cbn [ext]. rewrite EN. reflexivity.
      * rewrite FS. lia.
      * apply (t_cover _ _ T).
    + cbn [F' rec_file f_setmod f_setnxt f_sethdr f_hdr]. rewrite !rec_hdr_01 by (try exact H16; lia). apply (t_hdr _ _ T).
    + cbn [F' rec_file f_setmod f_setnxt f_sethdr f_setpages f_setdisk f_pages f_plen]. apply Forall_upd; [apply (t_page _ _ T)|]. apply (tile_page _ _ _ _ T P).
    + change (f_pages F') with (upd (f_pages f) k p'). change (f_modified F') with true. intros j s x q. rewrite EA, upd_nth.
      replace (k <? length (f_pages f))%nat with true by (symmetry; apply Nat.ltb_lt; apply nth_error_Some; congruence). rewrite andb_true_r.
      destruct (Nat.eqb j k && Nat.eqb s r) eqn:JS.
      * intros Q _. injection Q as <-. split; [|rewrite T1; lia]. apply rhd_live; [exact LV|].
        rewrite T1, T2, T3. cbn [F' rec_file f_setmod f_setnxt f_sethdr f_setpages f_setdisk f_disk]. rewrite NXT. rewrite <- F2.
        replace (2 * (hget (f_hdr f) H_FSIZ + 1 - 1)) with (2 * hget (f_hdr f) H_FSIZ + 1 - 1) by lia.
        apply range_write_firstn; lia.
      * intros EX Q.
        assert (exists q0, nth_error (f_pages f) j = Some q0 /\ (p_mod q0 = true -> p_mod q = true)) as (q0 & Q0 & QM).
        { destruct (Nat.eqb_spec j k) as [->|]; [injection Q as <-; exists p; auto|exists q; auto]. }
        destruct (t_rec _ _ T _ _ _ _ EX Q0) as [RA RB]. split; [|intros H; split; [apply QM, RB, H|reflexivity]].
        apply (rhd_apart ns f j s x (2 * hget (f_hdr f) H_FSIZ) nwords); auto.
        assert (XX : ext ns f (ORec j s) = Some (2 * (e_addr x - 1), 2 * e_lng x)) by (cbn [ext]; rewrite EX; reflexivity).
        pose proof (g_in _ _ G _ _ _ XX). unfold apart. cbn [fst snd]. lia.
Qed.

Lemma rec_append_gimg sk f k r p e1 rw te waddr nwords ws : gimg sk f -> nth_error (f_pages f) k = Some p ->
  0 <= waddr - 1 <= dsize (f_disk f) ->
  (forall j q, nth_error (f_pages f) j = Some q -> j <> k -> sk j -> p_mod q = true) ->
  (forall j q, nth_error (f_pages f) j = Some q ->
     2 * (p_addr q - 1) + page_wlen (f_plen f) <= waddr - 1 \/ waddr - 1 + Z.of_nat (length ws) <= 2 * (p_addr q - 1)) ->
  (forall j q, nth_error (f_pages f) j = Some q -> 0 <= 2 * (p_addr q - 1)) ->
  gimg (fun _ => False) (rec_file f k r p e1 rw te waddr nwords ws).
Proof.
  intros G P WA SK AP NN j q Hj _ M.
  cbn [rec_file f_setmod f_setnxt f_sethdr f_setpages f_setdisk f_pages f_modified] in Hj, M.
  destruct M as [M|M]; [|discriminate]. rewrite upd_nth in Hj. destruct (Nat.eqb_spec j k) as [->|D]; cbn [andb] in Hj.
  - destruct (k <? length (f_pages f))%nat eqn:Q; [injection Hj as <-; discriminate|].
    apply Nat.ltb_ge in Q. apply nth_error_None in Q. congruence.
  - destruct (G j q Hj) as [O X]; [|left; exact M|].
    { intros S. specialize (SK j q Hj D S). congruence. }
    split; [|exact X]. unfold on_disk in *. cbn [rec_file f_setmod f_setnxt f_sethdr f_setpages f_setdisk f_disk f_plen].
    pose proof (NN j q Hj). pose proof (AP j q Hj). assert (0 <= page_wlen (f_plen f)) by (unfold page_wlen; lia).
    unfold dsize in WA. rewrite range_write_other; [exact O|lia|]. lia.
Qed.

(** Rewriting in place. *)
Lemma rec_inplace ns f k r p e e1 nwords ws idt waddr : ginv ns f ->
  nth_error (f_pages f) k = Some p -> entry_at ns (f_pages f) k r = Some e -> live e = false ->
  e_lng e = nwords / 2 -> waddr = 2 * (e_addr e - 1) + 1 -> entry_for e e1 idt (nwords / 2) (e_addr e) ->
  1 <= idt <= 125 -> nwords mod 2 = 0 -> Z.of_nat (length ws) = nwords ->
  firstn 2 ws = [mk_hd idt (nwords / 2); e_addr e] ->
  ginv ns (rec_file f k r p e1 true false waddr nwords ws).
Proof.
  intros G P E NL EL WA (L1 & W1 & T1 & T2 & T3) I Ev Lw F2.
  pose proof (g_hlen16 _ _ G) as H16. pose proof (page_nth_ok _ _ _ _ G P) as POK.
  set (F' := rec_file f k r p e1 true false waddr nwords ws).
  set (p' := p_setmod (p_setent p r e1) true).
  assert (PE : p_ents p' = upd (p_ents p) r e1) by reflexivity.
  pose proof (entry_at_upd ns (f_pages f) k r p p' e1 P PE) as EA.
  destruct (entry_shape _ _ _ _ _ G E) as [SL SW].
  pose proof (g_ents _ _ G _ _ _ E) as (EO & LO & AO).
  assert (HL : length (f_hdr F') = length (f_hdr f)) by apply rec_hdr_length.
  assert (X : forall o, ext ns F' o = ext ns f o).
  { intros o. destruct o as [|j|j s]; cbn [ext]; [rewrite HL; reflexivity| |];
      cbn [F' rec_file f_setmod f_setnxt f_sethdr f_setpages f_setdisk f_pages f_plen]; fold p'.
    - rewrite upd_nth. destruct (Nat.eqb_spec j k) as [->|]; cbn [andb]; [|reflexivity].
      destruct (k <? length (f_pages f))%nat; [|reflexivity]. rewrite P. reflexivity.
    - rewrite EA. destruct (Nat.eqb_spec j k) as [->|], (Nat.eqb_spec s r) as [->|]; cbn [andb]; try reflexivity.
      rewrite E. cbn [option_map]. rewrite T2, T3, EL. reflexivity. }
  destruct (used_upd ns _ k r e p E P) as (A & B & U & U'). specialize (U' p' e1 PE).
  assert (LV : live e1 = true) by (unfold live; rewrite T1; apply andb_true_intro; split; apply Z.leb_le; lia).
  destruct (upd_chain_facts f k p p' P eq_refl eq_refl (g_chain _ _ G) (g_lastp _ _ G)) as (C1 & C2 & C3).
  assert (FS : hget (f_hdr F') H_FSIZ = hget (f_hdr f) H_FSIZ) by (apply (rec_hdr_fsiz f true false); exact H16).
  constructor.
  - apply (g_kp _ _ G).
  - apply (g_link _ _ G).
  - apply (g_tail _ _ G).
  - apply (g_plen _ _ G).
  - rewrite HL. unfold F'. cbn [rec_file f_setmod f_setnxt f_sethdr f_hdr]. rewrite rec_hdr_lng by exact H16. apply (g_hlen _ _ G).
  - rewrite HL. exact H16.
  - apply rec_hdr_words. apply (g_hw _ _ G).
  - unfold F'. cbn [rec_file f_setmod f_setnxt f_sethdr f_setpages f_setdisk f_hdr f_plen]. rewrite rec_hdr_lprm by exact H16. apply (g_lprm _ _ G).
  - cbn [F' rec_file f_setmod f_setnxt f_sethdr f_setpages f_pages]. rewrite upd_length. apply (g_np _ _ G).
  - cbn [F' rec_file f_setmod f_setnxt f_sethdr f_setpages f_pages f_hdr]. rewrite upd_length, rec_hdr_nbd by exact H16. apply (g_nbd _ _ G).
  - cbn [F' rec_file f_setmod f_setnxt f_sethdr f_setpages f_setdisk f_pages f_plen]. apply Forall_upd; [apply (g_pages _ _ G)|].
    apply page_ok_setmod, page_ok_setent; auto. rewrite L1. exact SL.
  - cbn [F' rec_file f_setmod f_setnxt f_sethdr f_setpages f_pages]. rewrite upd_length. apply (g_ns _ _ G).
  - apply (g_nsb _ _ G).
  - rewrite FS. apply (g_nxt _ _ G).
  - rewrite FS. cbn [F' rec_file f_setmod f_setnxt f_sethdr f_setpages f_setdisk f_disk].
    pose proof (g_size _ _ G). assert (IN : ext ns f (ORec k r) = Some (2 * (e_addr e - 1), 2 * e_lng e)) by (cbn [ext]; rewrite E; reflexivity).
    pose proof (g_in _ _ G _ _ _ IN). unfold dsize in *. rewrite write_at_length by lia. lia.
  - rewrite FS. apply (g_small _ _ G).
  - intros o s l. rewrite X, FS. apply (g_in _ _ G).
  - intros o o' x x'. rewrite !X. apply (g_apart _ _ G).
  - cbn [F' rec_file f_setmod f_setnxt f_sethdr f_setpages f_pages]. fold p'. intros j s x. rewrite EA.
    destruct (Nat.eqb j k && Nat.eqb s r); [|apply (g_ents _ _ G)]. rewrite E. intros Q. injection Q as <-.
    unfold entry_ok. rewrite T1, T2, T3. lia.
  - cbn [F' rec_file f_setmod f_setnxt f_sethdr f_setpages f_pages f_hdr]. fold p'. rewrite rec_hdr_nrec by exact H16.
    rewrite (g_nrec _ _ G), U, U', !count_app, !count_cons, LV, NL.
    pose proof (count_le live A). pose proof (count_le live B).
    pose proof (ginv_used_le _ _ G) as UL. rewrite U, app_length in UL. cbn [length] in UL.
    rewrite w32_id by (unfold word_ok; lia). lia.
  - cbn [F' rec_file f_setmod f_setnxt f_sethdr f_setpages f_pages f_hdr]. fold p'. rewrite rec_hdr_nxtn by exact H16.
    rewrite (g_nxtn _ _ G), U, U', !app_length. reflexivity.
  - cbn [F' rec_file f_setmod f_setnxt f_sethdr f_setpages f_pages f_hdr]. fold p'. rewrite rec_hdr_lng by exact H16.
    apply C3. apply (g_first _ _ G).
  - exact C1.
  - cbn [F' rec_file f_setmod f_setnxt f_sethdr f_setpages f_pages]. fold p'. rewrite upd_length. exact C2.
  - pose proof (g_tile _ _ G) as T. pose proof (g_size _ _ G) as SZ. unfold dsize in SZ.
    assert (IN : ext ns f (ORec k r) = Some (2 * (e_addr e - 1), 2 * e_lng e)) by (cbn [ext]; rewrite E; reflexivity).
    pose proof (g_in _ _ G _ _ _ IN) as INB. pose proof (Z.div_mod nwords 2 ltac:(lia)) as DM.
    assert (FR : forall a n, Z.of_nat (a + n) <= 2 * (e_addr e - 1) \/ 2 * (e_addr e - 1) + 2 * e_lng e <= Z.of_nat a ->
      range (f_disk F') a n = range (f_disk f) a n).
    { intros a n H. cbn [F' rec_file f_setmod f_setnxt f_sethdr f_setpages f_setdisk f_disk]. apply range_write_other; lia. }
    constructor.
    + intros y Hy. rewrite FS in Hy. destruct (t_cover _ _ T y Hy) as (o & s & l & O & B0). exists o, s, l. rewrite X. auto.
    + cbn [F' rec_file f_setmod f_setnxt f_sethdr f_hdr]. rewrite !rec_hdr_01 by (try exact H16; lia). apply (t_hdr _ _ T).
    + cbn [F' rec_file f_setmod f_setnxt f_sethdr f_setpages f_setdisk f_pages f_plen]. apply Forall_upd; [apply (t_page _ _ T)|]. apply (tile_page _ _ _ _ T P).
    + change (f_pages F') with (upd (f_pages f) k p'). change (f_modified F') with true. intros j s x q. rewrite EA, upd_nth.
      replace (k <? length (f_pages f))%nat with true by (symmetry; apply Nat.ltb_lt; apply nth_error_Some; congruence). rewrite andb_true_r.
      destruct (Nat.eqb j k && Nat.eqb s r) eqn:JS.
      * rewrite E. intros Q _. injection Q as <-. split; [|rewrite T1; lia]. apply rhd_live; [exact LV|].
        rewrite T1, T2, T3. cbn [F' rec_file f_setmod f_setnxt f_sethdr f_setpages f_setdisk f_disk]. rewrite <- F2.
        replace (waddr - 1) with (2 * (e_addr e - 1)) by lia. apply range_write_firstn; lia.
      * intros EX Q.
        assert (exists q0, nth_error (f_pages f) j = Some q0 /\ (p_mod q0 = true -> p_mod q = true)) as (q0 & Q0 & QM).
        { destruct (Nat.eqb_spec j k) as [->|]; [injection Q as <-; exists p; auto|exists q; auto]. }
        destruct (t_rec _ _ T _ _ _ _ EX Q0) as [R1 R2]. split; [|intros H; split; [apply QM, R2, H|reflexivity]].
        apply (rhd_apart ns f j s x (2 * (e_addr e - 1)) (2 * e_lng e)); auto.
        assert (XX : ext ns f (ORec j s) = Some (2 * (e_addr x - 1), 2 * e_lng x)) by (cbn [ext]; rewrite EX; reflexivity).
        apply (g_apart _ _ G _ _ _ _ XX IN). intros Q1. injection Q1 as -> ->. rewrite !Nat.eqb_refl in JS. discriminate.
Qed.

(** * A new directory page *)
Lemma new_page_ok junk plen a : page_ok plen (new_page junk plen a).
Proof.
  unfold page_ok, new_page. cbn [p_hd p_ents]. split; [reflexivity|]. split.
  - unfold all_words. repeat constructor; try (unfold word_ok; lia); try apply w32_range; apply hd_word.
  - split; [rewrite map_length, seq_length; reflexivity|]. apply Forall_forall. intros e H. apply in_map_iff in H.
    destruct H as (r & <- & _). split; [rewrite map_length, seq_length; reflexivity|].
    unfold all_words. apply Forall_forall. intros v Hv. apply in_map_iff in Hv. destruct Hv as (k & <- & _).
    destruct (_ <=? _)%nat; [unfold word_ok; lia|apply w32_range].
Qed.

Lemma new_page_addr junk plen a : p_addr (new_page junk plen a) = w32 a.
Proof. reflexivity. Qed.

Definition np_file (f : fte) (q pg : page) : fte :=
  let nx := f_nxtadr f + page_wlen (f_plen f) in
  f_setlink (f_setnxt (f_sethdr (f_setpages (f_setdisk f (write_at (f_disk f) (Z.to_nat (f_nxtadr f - 1)) (p_words pg)) (f_log f ++ [(f_nxtadr f, p_words pg)]))
      (upd (f_pages f) (length (f_pages f) - 1) (p_seth q 4 (p_addr pg)) ++ [p_setmod pg true]))
      (hset (hadd (hset (f_hdr f) H_FSIZ ((nx - 1) / 2)) H_NBD 1) H_PLST (p_addr pg))) nx) None (f_link f).

Lemma entry_at_newpage ns d k p p' pg : length ns = length d -> nth_error d k = Some p -> p_ents p' = p_ents p -> forall j s,
  entry_at (ns ++ [0%nat]) (upd d k p' ++ [pg]) j s = entry_at ns d j s.
Proof.
  intros L P E j s. rewrite <- (entry_at_upd_same ns d k p p' P E j s). unfold entry_at.
  destruct (Nat.lt_ge_cases j (length d)) as [J|J].
  - rewrite !nth_error_app1 by (rewrite ?upd_length; lia). reflexivity.
  - rewrite !nth_error_app2 by (rewrite ?upd_length; lia). rewrite upd_length.
    replace (nth_error ns j) with (@None nat) by (symmetry; apply nth_error_None; lia).
    rewrite L. destruct (j - length d)%nat as [|m]; cbn [nth_error]; [reflexivity|]. destruct m; reflexivity.
Qed.

Lemma newpage_ginv ns f q junk : ginv ns f -> nth_error (f_pages f) (length (f_pages f) - 1) = Some q ->
  (length (f_pages f) < MAX_DIR_PAGES)%nat ->
  2 * hget (f_hdr f) H_FSIZ + page_wlen (f_plen f) + 1 < 2 ^ 31 ->
  ginv (ns ++ [0%nat]) (np_file f q (new_page junk (f_plen f) ((f_nxtadr f - 1) / 2 + 1))).
Proof.
  intros G Q NP Sm. set (pg := new_page junk (f_plen f) ((f_nxtadr f - 1) / 2 + 1)).
  pose proof (g_hlen16 _ _ G) as H16. pose proof (hget_word _ _ H_FSIZ G) as FW. unfold word_ok in FW.
  assert (PW : page_wlen (f_plen f) = 2 * (page_wlen (f_plen f) / 2) /\ 0 < page_wlen (f_plen f)).
  { unfold page_wlen. rewrite (Z.mul_comm 2), Z.div_mul by lia. lia. }
  assert (NX : (f_nxtadr f - 1) / 2 = hget (f_hdr f) H_FSIZ).
  { rewrite (g_nxt _ _ G). replace (2 * hget (f_hdr f) H_FSIZ + 1 - 1) with (hget (f_hdr f) H_FSIZ * 2) by lia. apply Z.div_mul. lia. }
  assert (PA : p_addr pg = hget (f_hdr f) H_FSIZ + 1).
  { unfold pg. rewrite new_page_addr, NX. apply w32_id. unfold word_ok. lia. }
  set (F' := np_file f q pg). pose proof (page_nth_ok _ _ _ _ G Q) as QOK.
  set (q' := p_seth q 4 (p_addr pg)).
  assert (FS : hget (f_hdr F') H_FSIZ = hget (f_hdr f) H_FSIZ + page_wlen (f_plen f) / 2).
  { unfold F', np_file. cbn [f_hdr f_setlink f_setnxt f_sethdr]. hs.
    replace (f_nxtadr f + page_wlen (f_plen f) - 1) with ((hget (f_hdr f) H_FSIZ + page_wlen (f_plen f) / 2) * 2) by (rewrite (g_nxt _ _ G); lia).
    rewrite Z.div_mul by lia. apply w32_id. unfold word_ok. lia. }
  assert (PG : f_pages F' = upd (f_pages f) (length (f_pages f) - 1) q' ++ [p_setmod pg true]) by reflexivity.
  pose proof (entry_at_newpage ns (f_pages f) (length (f_pages f) - 1) q q' (p_setmod pg true) (g_ns _ _ G) Q eq_refl) as EA.
  pose proof (g_np _ _ G) as NPP.
  assert (HL : length (f_hdr F') = length (f_hdr f)).
  { unfold F', np_file. cbn [f_hdr f_setlink f_setnxt f_sethdr]. repeat (rewrite hset_length || rewrite hadd_length). reflexivity. }
  assert (X1 : forall o, o <> OPage (length (f_pages f)) -> ext (ns ++ [0%nat]) F' o = ext ns f o).
  { intros o D. destruct o as [|j|j s]; cbn [ext].
    - rewrite HL. reflexivity.
    - rewrite PG. change (f_plen F') with (f_plen f). destruct (Nat.lt_ge_cases j (length (f_pages f))).
      + rewrite nth_error_app1 by (rewrite upd_length; lia). rewrite upd_nth.
        destruct (Nat.eqb_spec j (length (f_pages f) - 1)) as [->|]; cbn [andb]; [|reflexivity].
        destruct (_ <? _)%nat; [|reflexivity]. rewrite Q. cbn [option_map]. unfold q'. rewrite p_addr_seth by lia. reflexivity.
      + rewrite nth_error_app2 by (rewrite upd_length; lia). rewrite upd_length.
        replace (nth_error (f_pages f) j) with (@None page) by (symmetry; apply nth_error_None; lia).
        destruct (j - length (f_pages f))%nat eqn:Z0; [exfalso; apply D; f_equal; lia|]. cbn [nth_error]. destruct n; reflexivity.
    - rewrite PG, EA. reflexivity. }
  assert (X2 : ext (ns ++ [0%nat]) F' (OPage (length (f_pages f))) = Some (2 * hget (f_hdr f) H_FSIZ, page_wlen (f_plen f))).
  { cbn [ext]. rewrite PG. change (f_plen F') with (f_plen f). rewrite nth_error_app2 by (rewrite upd_length; lia). rewrite upd_length, Nat.sub_diag.
    cbn [nth_error option_map]. change (p_addr (p_setmod pg true)) with (p_addr pg). rewrite PA. f_equal. f_equal. lia. }
  destruct (ext_add (ext ns f) (ext (ns ++ [0%nat]) F') _ _ _ (2 * hget (f_hdr f) H_FSIZ)
    X1 X2 (g_in _ _ G) (g_apart _ _ G)) as [XI XA]; try lia.
  assert (US : used (ns ++ [0%nat]) (f_pages F') = used ns (f_pages f)).
  { rewrite PG. rewrite used_app by (rewrite upd_length; apply (g_ns _ _ G)). cbn [used firstn app]. rewrite app_nil_r.
    apply (used_upd_same ns _ _ q q' Q eq_refl). }
  constructor.
  - apply (g_kp _ _ G).
  - apply (g_link _ _ G).
  - reflexivity.
  - apply (g_plen _ _ G).
  - rewrite HL. unfold F', np_file. cbn [f_hdr f_setlink f_setnxt f_sethdr].
    rewrite h_lng_hset by (try (unfold H_PLST; lia); hlen). unfold hadd. rewrite h_lng_hset by (try (unfold H_NBD; lia); hlen).
    rewrite h_lng_hset by (try (unfold H_FSIZ; lia); hlen). apply (g_hlen _ _ G).
  - rewrite HL. exact H16.
  - unfold F', np_file. cbn [f_hdr f_setlink f_setnxt f_sethdr]. apply hset_words, hadd_words, hset_words, (g_hw _ _ G).
  - unfold F', np_file. cbn [f_hdr f_setlink f_setnxt f_sethdr f_plen f_setpages f_setdisk].
    rewrite h_lprm_hset by (try (unfold H_PLST, H_PRM; lia); hlen). unfold hadd. rewrite h_lprm_hset by (try (unfold H_NBD, H_PRM; lia); hlen).
    rewrite h_lprm_hset by (try (unfold H_FSIZ, H_PRM; lia); hlen). apply (g_lprm _ _ G).
  - rewrite PG, app_length, upd_length. cbn [length]. lia.
  - rewrite PG, app_length, upd_length. cbn [length]. unfold F', np_file. cbn [f_hdr f_setlink f_setnxt f_sethdr]. hs.
    rewrite (g_nbd _ _ G). unfold MAX_DIR_PAGES in *. rewrite w32_id by (unfold word_ok; lia). lia.
  - rewrite PG. apply Forall_app. split; [apply Forall_upd; [apply (g_pages _ _ G)|apply page_ok_seth; exact QOK]|].
    constructor; [apply new_page_ok|constructor].
  - rewrite PG, !app_length, upd_length. cbn [length]. rewrite (g_ns _ _ G). reflexivity.
  - apply Forall_app. split; [apply (g_nsb _ _ G)|]. constructor; [apply Nat.le_0_l|constructor].
  - rewrite FS. unfold F', np_file. cbn [f_nxtadr f_setlink f_setnxt]. rewrite (g_nxt _ _ G). lia.
  - rewrite FS. unfold F', np_file. cbn [f_disk f_setlink f_setnxt f_sethdr f_setpages f_setdisk].
    rewrite (g_nxt _ _ G). pose proof (g_size _ _ G). unfold dsize in *. rewrite write_at_length by lia.
    rewrite (p_words_length (f_plen f)) by apply new_page_ok. lia.
  - rewrite FS. lia.
  - rewrite FS. replace (2 * (hget (f_hdr f) H_FSIZ + page_wlen (f_plen f) / 2)) with (2 * hget (f_hdr f) H_FSIZ + page_wlen (f_plen f)) by lia. exact XI.
  - exact XA.
  - intros j s x. rewrite PG, EA. apply (g_ents _ _ G).
  - rewrite US. unfold F', np_file. cbn [f_hdr f_setlink f_setnxt f_sethdr]. hs. apply (g_nrec _ _ G).
  - rewrite US. unfold F', np_file. cbn [f_hdr f_setlink f_setnxt f_sethdr]. hs. apply (g_nxtn _ _ G).
  - intros a. rewrite PG, nth_error_app1 by (rewrite upd_length; lia). rewrite upd_nth.
    assert (HN : h_lng (f_hdr F') = h_lng (f_hdr f)).
    { pose proof (g_hlen _ _ G). unfold F', np_file. cbn [f_hdr f_setlink f_setnxt f_sethdr].
      rewrite h_lng_hset by (try (unfold H_PLST; lia); hlen). unfold hadd. rewrite h_lng_hset by (try (unfold H_NBD; lia); hlen).
      rewrite h_lng_hset by (try (unfold H_FSIZ; lia); hlen). reflexivity. }
    rewrite HN. destruct (Nat.eqb_spec 0 (length (f_pages f) - 1)) as [Z0|]; cbn [andb]; [|apply (g_first _ _ G)].
    destruct (_ <? _)%nat; [|apply (g_first _ _ G)]. intros H. injection H as <-. unfold q'. rewrite p_addr_seth by lia.
    apply (g_first _ _ G). rewrite Z0. exact Q.
  - intros j a b. rewrite PG. destruct (Nat.lt_ge_cases (S j) (length (f_pages f))) as [J|J].
    + rewrite !nth_error_app1 by (rewrite upd_length; lia). rewrite (upd_nth_other _ _ _ j) by lia. rewrite upd_nth.
      intros Ha Hb. assert (exists b0, nth_error (f_pages f) (S j) = Some b0 /\ p_addr b = p_addr b0) as (b0 & Hb0 & Nb).
      { destruct (Nat.eqb_spec (S j) (length (f_pages f) - 1)) as [E|E]; cbn [andb] in Hb; [|exists b; auto].
        destruct (_ <? _)%nat; [injection Hb as <-|exists b; auto]. exists q. rewrite E. split; [exact Q|].
        unfold q'. apply p_addr_seth. lia. }
      rewrite Nb. apply (g_chain _ _ G j); assumption.
    + intros Ha Hb. rewrite nth_error_app2 in Hb by (rewrite upd_length; lia). rewrite upd_length in Hb.
      destruct (S j - length (f_pages f))%nat eqn:Z0; [|cbn [nth_error] in Hb; destruct n; discriminate].
      cbn [nth_error] in Hb. injection Hb as <-. assert (j = length (f_pages f) - 1)%nat by lia. subst j.
      rewrite nth_error_app1 in Ha by (rewrite upd_length; lia). rewrite upd_nth_same in Ha by lia. injection Ha as <-.
      unfold q'. rewrite p_nxt_seth4 by apply QOK. change (p_addr (p_setmod pg true)) with (p_addr pg). rewrite PA. apply w32_id. unfold word_ok. lia.
  - intros a. rewrite PG, app_length, upd_length. cbn [length]. rewrite nth_error_app2 by (rewrite upd_length; lia). rewrite upd_length.
    replace (length (f_pages f) + 1 - 1 - length (f_pages f))%nat with 0%nat by lia. cbn [nth_error]. intros H. injection H as <-. reflexivity.
  - pose proof (g_tile _ _ G) as T. pose proof (g_size _ _ G) as SZ. unfold dsize in SZ. pose proof (g_nxt _ _ G) as NXT.
    assert (FR : forall a n, Z.of_nat (a + n) <= 2 * hget (f_hdr f) H_FSIZ \/ 2 * hget (f_hdr f) H_FSIZ + page_wlen (f_plen f) <= Z.of_nat a ->
      range (f_disk F') a n = range (f_disk f) a n).
    { intros a n H. cbn [F' np_file f_setlink f_setmod f_setnxt f_sethdr f_setpages f_setdisk f_disk]. apply range_write_other; [lia|].
      rewrite (p_words_length (f_plen f)) by apply new_page_ok. lia. }
    constructor.
    + apply (ext_add_cover (ext ns f) _ (OPage (length (f_pages f))) (2 * hget (f_hdr f) H_FSIZ) (page_wlen (f_plen f)) (2 * hget (f_hdr f) H_FSIZ)); auto.
      * cbn [ext]. rewrite (proj2 (nth_error_None (f_pages f) (length (f_pages f)))) by lia. reflexivity.
      * rewrite FS. lia.
      * apply (t_cover _ _ T).
    + unfold F', np_file. cbn [f_hdr f_setlink f_setnxt f_sethdr]. hs. apply (t_hdr _ _ T).
    + rewrite PG. change (f_plen F') with (f_plen f). apply Forall_app. split.
      * apply Forall_upd; [apply (t_page _ _ T)|]. apply phd_seth; [lia|]. apply (tile_page _ _ _ _ T Q).
      * constructor; [reflexivity|constructor].
    + intros j s x b. rewrite PG, EA. intros EX Qb.
      assert (JL : (j < length (f_pages f))%nat). { destruct (entry_at_page _ _ _ _ _ EX) as (n & p0 & _ & P0 & _). apply nth_error_Some. congruence. }
      rewrite nth_error_app1 in Qb by (rewrite upd_length; lia). rewrite upd_nth in Qb.
      assert (exists q0, nth_error (f_pages f) j = Some q0 /\ p_mod q0 = p_mod b) as (q0 & Q0 & QM).
      { destruct (Nat.eqb_spec j (length (f_pages f) - 1)) as [->|]; cbn [andb] in Qb; [|exists b; auto].
        destruct (_ <? _)%nat; [injection Qb as <-; exists q; auto|exists b; auto]. }
      destruct (t_rec _ _ T _ _ _ _ EX Q0) as [R1 R2]. rewrite <- QM. split; [|exact R2].
      apply (rhd_apart ns f j s x (2 * hget (f_hdr f) H_FSIZ) (page_wlen (f_plen f))); auto.
      assert (XX : ext ns f (ORec j s) = Some (2 * (e_addr x - 1), 2 * e_lng x)) by (cbn [ext]; rewrite EX; reflexivity).
      pose proof (g_in _ _ G _ _ _ XX). unfold apart. cbn [fst snd]. lia.
Qed.
