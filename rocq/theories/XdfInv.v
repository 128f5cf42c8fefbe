(** Invariant of an open random XDF file and its preservation. *)
From Coq Require Import ZArith List Lia Bool.
From Verif Require Import Bits Handles WaFile Xdf XdfLib.
Import ListNotations.
Open Scope Z_scope.

(** * Extents on disk *)
Inductive owner := OHdr | OPage (k : nat) | ORec (k r : nat).

Definition ext (ns : list nat) (f : fte) (o : owner) : option (Z * Z) :=
  match o with
  | OHdr => Some (0, Z.of_nat (length (f_hdr f)))
  | OPage k => option_map (fun p => (2 * (p_addr p - 1), page_wlen (f_plen f))) (nth_error (f_pages f) k)
  | ORec k r => option_map (fun e => (2 * (e_addr e - 1), 2 * e_lng e)) (entry_at ns (f_pages f) k r)
  end.

Definition apart (a b : Z * Z) : Prop := fst a + snd a <= fst b \/ fst b + snd b <= fst a.

Definition page_ok (plen : nat) (p : page) : Prop :=
  length (p_hd p) = 8%nat /\ all_words (p_hd p) /\ length (p_ents p) = EPP /\
  Forall (fun e => length e = (2 * plen)%nat /\ all_words e) (p_ents p).

Definition live (e : list Z) : bool := (1 <=? e_idtyp e) && (e_idtyp e <=? 125).
Definition entry_ok (e : list Z) : Prop :=
  (1 <= e_idtyp e <= 125 \/ e_idtyp e = 254 \/ e_idtyp e = 255) /\ 1 <= e_lng e /\ 1 <= e_addr e.

Definition kp_ok (kp : keypack) : Prop :=
  (forall h dst ks m mk dst' m', kp_write kp h dst ks m mk = Some (dst', m') ->
     length dst' = length dst /\ length m' = length m /\ (all_words dst -> all_words ks -> all_words dst')) /\
  (forall h src ks, kp_read kp h src = Some ks -> all_words src -> all_words ks).

Definition on_disk (f : fte) (p : page) : Prop :=
  range (f_disk f) (Z.to_nat (2 * (p_addr p - 1))) (Z.to_nat (page_wlen (f_plen f))) = p_words p.

Definition xorw (l : list Z) : Z := fold_left Z.lxor l 0.

(** What the two first words of the record of entry [e] are on disk: the
    record's length and address, and its type unless it was deleted. *)
Definition rhd (d : disk) (e : list Z) : Prop :=
  exists t, 0 <= t < 256 /\ range d (Z.to_nat (2 * (e_addr e - 1))) 2 = [mk_hd t (e_lng e); e_addr e] /\
    (live e = true -> t = e_idtyp e) /\ (e_idtyp e = 255 -> t = 255).
Definition phd (plen : nat) (p : page) : Prop := nth 0 (p_hd p) 0 = mk_hd 0 (Z.of_nat (EPP * plen + 4)).

(** The parts of a file follow each other without gaps, each starting with its
    type, length and address. *)
Record tile (ns : list nat) (f : fte) : Prop := {
  t_cover : forall x, 0 <= x < 2 * hget (f_hdr f) H_FSIZ -> exists o s l, ext ns f o = Some (s, l) /\ s <= x < s + l;
  t_hdr : w_idtyp (hget (f_hdr f) 0) = 0 /\ hget (f_hdr f) 1 = 0;
  t_page : Forall (phd (f_plen f)) (f_pages f);
  t_rec : forall k r e p, entry_at ns (f_pages f) k r = Some e -> nth_error (f_pages f) k = Some p ->
    rhd (f_disk f) e /\ (e_idtyp e = 254 -> p_mod p = true /\ f_modified f = true)
}.

Record ginv (ns : list nat) (f : fte) : Prop := {
  g_kp : kp_ok (f_kp f);
  g_link : f_link f = -1;
  g_tail : f_tail f = None;
  g_plen : (1 <= f_plen f <= 16)%nat;
  g_hlen : Z.of_nat (length (f_hdr f)) = 2 * h_lng (f_hdr f);
  g_hlen16 : (16 <= length (f_hdr f))%nat;
  g_hw : all_words (f_hdr f);
  g_lprm : h_lprm (f_hdr f) = Z.of_nat (f_plen f);
  g_np : (1 <= length (f_pages f) <= MAX_DIR_PAGES)%nat;
  g_nbd : hget (f_hdr f) H_NBD = Z.of_nat (length (f_pages f));
  g_pages : Forall (page_ok (f_plen f)) (f_pages f);
  g_ns : length ns = length (f_pages f);
  g_nsb : Forall (fun n => (n <= EPP)%nat) ns;
  g_nxt : f_nxtadr f = 2 * hget (f_hdr f) H_FSIZ + 1;
  g_size : 2 * hget (f_hdr f) H_FSIZ <= dsize (f_disk f);
  g_small : 2 * hget (f_hdr f) H_FSIZ + 1 < 2 ^ 31;
  g_in : forall o s l, ext ns f o = Some (s, l) -> 0 <= s /\ 0 < l /\ s + l <= 2 * hget (f_hdr f) H_FSIZ;
  g_apart : forall o o' x x', ext ns f o = Some x -> ext ns f o' = Some x' -> o <> o' -> apart x x';
  g_ents : forall k r e, entry_at ns (f_pages f) k r = Some e -> entry_ok e;
  g_nrec : hget (f_hdr f) H_NREC = count live (used ns (f_pages f));
  g_nxtn : hget (f_hdr f) H_NXTN = Z.of_nat (length (used ns (f_pages f)));
  g_first : forall p, nth_error (f_pages f) 0 = Some p -> p_addr p = h_lng (f_hdr f) + 1;
  g_chain : forall k p q, nth_error (f_pages f) k = Some p -> nth_error (f_pages f) (S k) = Some q -> p_nxt p = p_addr q;
  g_lastp : forall p, nth_error (f_pages f) (length (f_pages f) - 1) = Some p -> p_nxt p = 0;
  g_tile : tile ns f
}.

(** Pages not marked as modified are on disk, with a correct checksum. [sk]:
    pages for which this is suspended. *)
Definition gimg (sk : nat -> Prop) (f : fte) : Prop :=
  forall k p, nth_error (f_pages f) k = Some p -> ~ sk k -> (p_mod p = false \/ f_modified f = false) ->
    on_disk f p /\ xorw (skipn 4 (p_words p)) = 0.

Definition nents (d : dir) : list nat := map (fun p => Z.to_nat (p_nent p)) d.
Definition finv (f : fte) : Prop := ginv (nents (f_pages f)) f /\ gimg (fun _ => False) f.

(** * Small consequences *)
Lemma used_length_le ns d : length ns = length d -> Forall (fun n => (n <= EPP)%nat) ns -> (length (used ns d) <= EPP * length d)%nat.
Proof.
  revert d. induction ns; intros [|p d] H F; cbn [length used] in *; try lia.
  inversion F; subst. rewrite app_length, firstn_length. specialize (IHns d ltac:(lia) H3). lia.
Qed.

Lemma ginv_used_le ns f : ginv ns f -> (length (used ns (f_pages f)) <= 1024 * 256)%nat.
Proof.
  intros G. pose proof (used_length_le ns (f_pages f) (g_ns _ _ G) (g_nsb _ _ G)) as U.
  pose proof (g_np _ _ G) as N. unfold MAX_DIR_PAGES, EPP in *. 
  apply Nat.le_trans with (256 * length (f_pages f))%nat; [exact U|]. lia.
Qed.

Lemma hget_word ns f k : ginv ns f -> word_ok (hget (f_hdr f) k).
Proof. intros G. apply all_words_nth. apply (g_hw _ _ G). Qed.

Lemma page_nth_ok ns f k p : ginv ns f -> nth_error (f_pages f) k = Some p -> page_ok (f_plen f) p.
Proof. intros G H. pose proof (g_pages _ _ G) as F. rewrite Forall_forall in F. apply F. eapply nth_error_In; eassumption. Qed.

Lemma entry_at_page ns d k r e : entry_at ns d k r = Some e ->
  exists n p, nth_error ns k = Some n /\ nth_error d k = Some p /\ (r < n)%nat /\ nth_error (p_ents p) r = Some e.
Proof.
  unfold entry_at. destruct (nth_error ns k) as [n|]; [|discriminate]. destruct (nth_error d k) as [p|]; [|discriminate].
  destruct (Nat.ltb_spec r n); [|discriminate]. intros. exists n, p. auto.
Qed.

Lemma entry_shape ns f k r e : ginv ns f -> entry_at ns (f_pages f) k r = Some e -> length e = (2 * f_plen f)%nat /\ all_words e.
Proof.
  intros G H. destruct (entry_at_page _ _ _ _ _ H) as (n & p & _ & P & _ & E).
  pose proof (page_nth_ok _ _ _ _ G P) as (_ & _ & _ & F). rewrite Forall_forall in F. apply F. eapply nth_error_In; eassumption.
Qed.

Lemma p_words_length plen p : page_ok plen p -> length (p_words p) = Z.to_nat (page_wlen plen).
Proof.
  intros (A & _ & B & F). unfold p_words. rewrite app_length, A.
  rewrite (concat_length_const _ (2 * plen)). 2: { eapply Forall_impl; [|exact F]. cbv beta. tauto. }
  rewrite B. unfold page_wlen, EPP. lia.
Qed.

Lemma p_words_words plen p : page_ok plen p -> all_words (p_words p).
Proof.
  intros (_ & A & _ & F). unfold p_words. apply all_words_app. split; [exact A|].
  unfold all_words. apply Forall_concat. eapply Forall_impl; [|exact F]. cbv beta. tauto.
Qed.

(** * Pages after the changes made by the engine *)
Lemma p_addr_seth p k v : k <> 1%nat -> p_addr (p_seth p k v) = p_addr p.
Proof.
  intros. unfold p_addr, p_seth. cbn [p_hd]. rewrite upd_nthd.
  replace (Nat.eqb 1 k) with false by (symmetry; apply Nat.eqb_neq; lia). reflexivity.
Qed.
Lemma page_ok_seth plen p k v : page_ok plen p -> page_ok plen (p_seth p k v).
Proof.
  intros (A & B & C & D). unfold page_ok, p_seth. cbn [p_hd p_ents]. rewrite upd_length. repeat split; auto.
  apply upd_words; [exact B|apply w32_range].
Qed.
Lemma page_ok_setent plen p r e : page_ok plen p -> length e = (2 * plen)%nat -> all_words e -> page_ok plen (p_setent p r e).
Proof.
  intros (A & B & C & D) L W. unfold page_ok, p_setent. cbn [p_hd p_ents]. rewrite upd_length. repeat split; auto.
  apply Forall_forall. intros x Hx. apply In_nth_error in Hx. destruct Hx as [j Hj]. rewrite upd_nth in Hj.
  destruct (Nat.eqb j r && (r <? length (p_ents p))%nat).
  - injection Hj as <-. auto.
  - rewrite Forall_forall in D. apply D. eapply nth_error_In; eassumption.
Qed.
Lemma page_ok_setmod plen p b : page_ok plen p -> page_ok plen (p_setmod p b).
Proof. intros H. exact H. Qed.

Lemma Forall_upd {A} (P : A -> Prop) l k v : Forall P l -> P v -> Forall P (upd l k v).
Proof. intros F H. revert k. induction F; intros [|k]; cbn; constructor; auto. Qed.

(** Entries when one page is replaced by one with the same entries except one. *)
Lemma entry_at_upd ns d k r p p' e' :
  nth_error d k = Some p -> p_ents p' = upd (p_ents p) r e' -> forall j s,
  entry_at ns (upd d k p') j s = if Nat.eqb j k && Nat.eqb s r then
     (match entry_at ns d k r with Some _ => Some e' | None => None end) else entry_at ns d j s.
Proof.
  intros P E j s. unfold entry_at. rewrite upd_nth.
  assert (L : (k <? length d)%nat = true). { apply Nat.ltb_lt. apply nth_error_Some. congruence. }
  rewrite L, andb_true_r. destruct (Nat.eqb_spec j k) as [->|J]; cbn [andb].
  - rewrite P. destruct (nth_error ns k) as [n|]; [|destruct (Nat.eqb s r); reflexivity].
    rewrite E, upd_nth. destruct (Nat.eqb_spec s r) as [->|S]; cbn [andb].
    + destruct (Nat.ltb_spec r n); [|reflexivity].
      destruct (nth_error (p_ents p) r) eqn:Q.
      * replace (r <? length (p_ents p))%nat with true; [reflexivity|]. symmetry. apply Nat.ltb_lt. apply nth_error_Some. congruence.
      * replace (r <? length (p_ents p))%nat with false; [reflexivity|]. symmetry. apply Nat.ltb_ge. apply nth_error_None. exact Q.
    + reflexivity.
  - reflexivity.
Qed.

Lemma entry_at_upd_same ns d k p p' :
  nth_error d k = Some p -> p_ents p' = p_ents p -> forall j s, entry_at ns (upd d k p') j s = entry_at ns d j s.
Proof.
  intros P E j s. unfold entry_at. rewrite upd_nth.
  destruct (Nat.eqb_spec j k) as [->|J]; cbn [andb]; [|reflexivity].
  destruct (k <? length d)%nat; [|reflexivity]. rewrite P, E. reflexivity.
Qed.

Lemma used_upd_same ns d k p p' : nth_error d k = Some p -> p_ents p' = p_ents p -> used ns (upd d k p') = used ns d.
Proof.
  intros P E. apply used_ents_ext. rewrite map_upd, E. apply upd_self. apply map_nth_error. exact P.
Qed.

Lemma nents_upd_same d k p p' : nth_error d k = Some p -> p_nent p' = p_nent p -> nents (upd d k p') = nents d.
Proof.
  intros P E. unfold nents. rewrite map_upd, E. apply upd_self. apply (map_nth_error (fun p => Z.to_nat (p_nent p)) _ _ P).
Qed.

Lemma rhd_same d d' e : range d' (Z.to_nat (2 * (e_addr e - 1))) 2 = range d (Z.to_nat (2 * (e_addr e - 1))) 2 -> rhd d e -> rhd d' e.
Proof. intros R (t & A & B & C). exists t. rewrite R. auto. Qed.

Lemma rhd_live d e : live e = true -> range d (Z.to_nat (2 * (e_addr e - 1))) 2 = [mk_hd (e_idtyp e) (e_lng e); e_addr e] -> rhd d e.
Proof.
  intros L R. exists (e_idtyp e). unfold live in L. apply andb_prop in L. destruct L as [L1 L2]. apply Z.leb_le in L1, L2.
  split; [lia|]. split; [exact R|]. split; [reflexivity|]. lia.
Qed.

(** Deleted, in the directory only. *)
Lemma rhd_del d e : (0 < length e)%nat -> rhd d e -> rhd d (upd e 0 (mk_hd 254 (e_lng e))).
Proof.
  intros L (t & A & B & _). exists t. destruct e as [|a e]; [cbn [length] in L; lia|].
  assert (T : e_idtyp (upd (a :: e) 0 (mk_hd 254 (e_lng (a :: e)))) = 254) by (unfold e_idtyp; cbn [upd nth]; rewrite hd_idtyp; reflexivity).
  assert (N : e_lng (upd (a :: e) 0 (mk_hd 254 (e_lng (a :: e)))) = e_lng (a :: e)).
  { unfold e_lng. cbn [upd nth]. rewrite hd_lng. apply Z.mod_small. apply w_lng_range. }
  unfold live. rewrite T, N. unfold e_addr in *. cbn [upd nth] in *. split; [exact A|]. split; [exact B|]. split; [discriminate|]. lia.
Qed.

Lemma phd_seth plen p k v : k <> 0%nat -> phd plen p -> phd plen (p_seth p k v).
Proof.
  intros K H. unfold phd, p_seth. cbn [p_hd]. rewrite upd_nthd. destruct (Nat.eqb_spec 0 k); [lia|]. cbn [andb]. exact H.
Qed.
Lemma tile_page ns f k p : tile ns f -> nth_error (f_pages f) k = Some p -> phd (f_plen f) p.
Proof. intros T P. pose proof (t_page _ _ T) as F. rewrite Forall_forall in F. apply F. eapply nth_error_In; exact P. Qed.
