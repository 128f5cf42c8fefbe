(** Library facts for the XDF model: array assignment, header words. *)
From Coq Require Import ZArith List Lia Bool.
From Verif Require Import Bits WaFile Xdf.
Import ListNotations.
Open Scope Z_scope.

Definition word_ok (v : Z) : Prop := 0 <= v < 2 ^ 32.
Definition all_words (l : list Z) : Prop := Forall word_ok l.

Lemma w32_range v : word_ok (w32 v).
Proof. unfold word_ok, w32. apply Z.mod_pos_bound. lia. Qed.
Lemma w32_id v : word_ok v -> w32 v = v.
Proof. intros. unfold w32. apply Z.mod_small. assumption. Qed.

Lemma upd_length {A} (l : list A) i v : length (upd l i v) = length l.
Proof. revert i. induction l; intros [|i]; cbn; auto. Qed.

Lemma upd_nth {A} (l : list A) i v k :
  nth_error (upd l i v) k = if Nat.eqb k i && (i <? length l)%nat then Some v else nth_error l k.
Proof.
  revert i k. induction l; intros i k.
  - cbn [upd length]. rewrite andb_false_r. reflexivity.
  - destruct i, k; cbn [upd nth_error length Nat.eqb andb]; auto.
    rewrite IHl. reflexivity.
Qed.

Lemma upd_nth_same {A} (l : list A) i v : (i < length l)%nat -> nth_error (upd l i v) i = Some v.
Proof. intros. rewrite upd_nth, Nat.eqb_refl. replace (i <? length l)%nat with true by (symmetry; apply Nat.ltb_lt; lia). reflexivity. Qed.

Lemma upd_nth_other {A} (l : list A) i v k : k <> i -> nth_error (upd l i v) k = nth_error l k.
Proof. intros. rewrite upd_nth. replace (Nat.eqb k i) with false by (symmetry; apply Nat.eqb_neq; assumption). reflexivity. Qed.

Lemma upd_nthd {A} (l : list A) i v k d : nth k (upd l i v) d = if Nat.eqb k i && (i <? length l)%nat then v else nth k l d.
Proof.
  revert i k. induction l; intros i k.
  - cbn [upd length]. rewrite andb_false_r. reflexivity.
  - destruct i, k; cbn [upd nth length Nat.eqb andb]; auto.
    rewrite (IHl i k). reflexivity.
Qed.

Lemma upd_app1 {A} (l1 l2 : list A) i v : (i < length l1)%nat -> upd (l1 ++ l2) i v = upd l1 i v ++ l2.
Proof.
  revert i. induction l1; intros i H; [cbn in H; lia|]. destruct i; cbn; [reflexivity|]. rewrite IHl1; [reflexivity|]. cbn in H. lia.
Qed.

Lemma upd_app2 {A} (l1 l2 : list A) v x : upd (l1 ++ x :: l2) (length l1) v = l1 ++ v :: l2.
Proof. induction l1; cbn; [reflexivity|]. rewrite IHl1. reflexivity. Qed.

Lemma upd_upd {A} (l : list A) i v v' : upd (upd l i v) i v' = upd l i v'.
Proof. revert i. induction l; intros [|i]; cbn; auto. f_equal. apply IHl. Qed.

Lemma upd_self {A} (l : list A) i v : nth_error l i = Some v -> upd l i v = l.
Proof. revert i. induction l; intros [|i] H; cbn in *; try discriminate; [congruence|]. f_equal. auto. Qed.

Lemma upd_split {A} (l : list A) i x : nth_error l i = Some x ->
  exists l1 l2, l = l1 ++ x :: l2 /\ length l1 = i /\ forall v, upd l i v = l1 ++ v :: l2.
Proof.
  intros H. destruct (nth_error_split l i H) as (l1 & l2 & E & L). exists l1, l2. subst l.
  split; [reflexivity|]. split; [exact L|]. intros v. rewrite <- L. apply upd_app2.
Qed.

Lemma upd_words l i v : all_words l -> word_ok v -> all_words (upd l i v).
Proof.
  unfold all_words. intros H W. revert i. induction H; intros i; [destruct i; constructor|].
  destruct i; cbn; constructor; auto.
Qed.

Lemma all_words_nth l k : all_words l -> word_ok (nth k l 0).
Proof.
  intros H. destruct (Nat.lt_ge_cases k (length l)).
  - unfold all_words in H. rewrite Forall_forall in H. apply H. apply nth_In. assumption.
  - rewrite nth_overflow by assumption. split; [lia|reflexivity].
Qed.

Lemma all_words_app a b : all_words (a ++ b) <-> all_words a /\ all_words b.
Proof. unfold all_words. apply Forall_app. Qed.
Lemma all_words_firstn n l : all_words l -> all_words (firstn n l).
Proof. unfold all_words. intros. rewrite <- (firstn_skipn n l) in H. apply Forall_app in H. tauto. Qed.
Lemma all_words_skipn n l : all_words l -> all_words (skipn n l).
Proof. unfold all_words. intros. rewrite <- (firstn_skipn n l) in H. apply Forall_app in H. tauto. Qed.
Lemma all_words_repeat0 n : all_words (repeat 0 n).
Proof. unfold all_words. apply Forall_forall. intros x H. apply repeat_spec in H. subst. split; [lia|reflexivity]. Qed.

(** Header words. *)
Lemma hset_length h k v : length (hset h k v) = length h.
Proof. apply upd_length. Qed.
Lemma hget_hset h k v j : (k < length h)%nat -> hget (hset h k v) j = if Nat.eqb j k then w32 v else hget h j.
Proof.
  intros. unfold hget, hset. rewrite upd_nthd. replace (k <? length h)%nat with true by (symmetry; apply Nat.ltb_lt; lia).
  rewrite andb_true_r. reflexivity.
Qed.
Lemma hset_words h k v : all_words h -> all_words (hset h k v).
Proof. intros. apply upd_words; [assumption|apply w32_range]. Qed.
Lemma hadd_length h k v : length (hadd h k v) = length h.
Proof. apply hset_length. Qed.
Lemma hget_hadd h k v j : (k < length h)%nat -> hget (hadd h k v) j = if Nat.eqb j k then w32 (hget h k + v) else hget h j.
Proof. intros. unfold hadd. apply hget_hset. assumption. Qed.
Lemma hadd_words h k v : all_words h -> all_words (hadd h k v).
Proof. intros. apply hset_words. assumption. Qed.

(** Record header word. *)
Lemma hd_idtyp t l : w_idtyp (mk_hd t l) = t mod 256.
Proof.
  unfold w_idtyp, mk_hd. rewrite Z.add_comm, Z.div_add by lia.
  rewrite Z.div_small by (apply Z.mod_pos_bound; lia). rewrite Z.add_0_l. apply Z.mod_mod. lia.
Qed.
Lemma hd_lng t l : w_lng (mk_hd t l) = l mod 2 ^ 24.
Proof. unfold w_lng, mk_hd. rewrite Z.add_comm, Z.mod_add by lia. apply Z.mod_mod. lia. Qed.
Lemma hd_word t l : word_ok (mk_hd t l).
Proof.
  unfold word_ok, mk_hd. pose proof (Z.mod_pos_bound t 256 ltac:(lia)). pose proof (Z.mod_pos_bound l (2 ^ 24) ltac:(lia)). lia.
Qed.
Lemma w_lng_range w : 0 <= w_lng w < 2 ^ 24.
Proof. unfold w_lng. apply Z.mod_pos_bound. lia. Qed.
Lemma w_idtyp_range w : 0 <= w_idtyp w < 256.
Proof. unfold w_idtyp. apply Z.mod_pos_bound. lia. Qed.
Lemma mk_hd_eta w : word_ok w -> mk_hd (w_idtyp w) (w_lng w) = w.
Proof.
  intros [A B]. unfold mk_hd, w_idtyp, w_lng. rewrite !Z.mod_mod by lia.
  rewrite (Z.mod_small (w / 2 ^ 24)). 2: { split; [apply Z.div_pos; lia|apply Z.div_lt_upper_bound; lia]. }
  pose proof (Z.div_mod w (2 ^ 24) ltac:(lia)). lia.
Qed.

(** Chunks. *)
Lemma chunks_length n k l : length (chunks n k l) = n.
Proof. revert l. induction n; intros; cbn; auto. Qed.
Lemma concat_chunks n k l : length l = (n * k)%nat -> concat (chunks n k l) = l.
Proof.
  revert l. induction n; intros l H; cbn [chunks concat].
  - destruct l; [reflexivity|discriminate].
  - rewrite IHn by (rewrite skipn_length; cbn in H; lia). apply firstn_skipn.
Qed.
Lemma chunks_concat n k ls : length ls = n -> Forall (fun e => length e = k) ls -> chunks n k (concat ls) = ls.
Proof.
  revert n. induction ls as [|e ls IH]; intros n L F; cbn [length] in L; subst n; [reflexivity|].
  inversion F; subst. cbn [chunks concat].
  rewrite firstn_app, Nat.sub_diag, firstn_all, firstn_O, app_nil_r.
  rewrite skipn_app, Nat.sub_diag, skipn_all. cbn [skipn app]. f_equal. apply IH; auto.
Qed.
Lemma concat_length_const (ls : list (list Z)) k : Forall (fun e => length e = k) ls -> length (concat ls) = (length ls * k)%nat.
Proof. induction 1; cbn; [reflexivity|]. rewrite app_length. lia. Qed.

(** Directory: effective number of entries [ns] of each page. *)
Definition dir := list page.

Definition entry_at (ns : list nat) (d : dir) (k r : nat) : option (list Z) :=
  match nth_error ns k, nth_error d k with
  | Some n, Some p => if (r <? n)%nat then nth_error (p_ents p) r else None
  | _, _ => None
  end.

Fixpoint used (ns : list nat) (d : dir) : list (list Z) :=
  match ns, d with
  | n :: ns', p :: d' => firstn n (p_ents p) ++ used ns' d'
  | _, _ => []
  end.

Lemma used_app ns ns' d d' : length ns = length d -> used (ns ++ ns') (d ++ d') = used ns d ++ used ns' d'.
Proof.
  revert d. induction ns; intros d H; destruct d; cbn in *; try lia; [reflexivity|].
  rewrite <- app_assoc. f_equal. apply IHns. lia.
Qed.

Lemma entry_at_In ns d k r e : entry_at ns d k r = Some e -> In e (used ns d).
Proof.
  revert d k. induction ns; intros d k H; [unfold entry_at in H; destruct k; discriminate|].
  destruct d as [|p d]; [unfold entry_at in H; destruct k; cbn in H; [discriminate|destruct (nth_error ns k); discriminate]|].
  cbn [used]. apply in_or_app. destruct k.
  - left. unfold entry_at in H. cbn [nth_error] in H. destruct (Nat.ltb_spec r a); [|discriminate].
    apply nth_error_In with r. rewrite nth_firstn. replace (r <? a)%nat with true by (symmetry; apply Nat.ltb_lt; lia). exact H.
  - right. apply IHns with k. exact H.
Qed.

Lemma In_entry_at ns d e : In e (used ns d) -> exists k r, entry_at ns d k r = Some e.
Proof.
  revert d. induction ns; intros d H; [destruct H|]. destruct d as [|p d]; [destruct H|]. cbn [used] in H.
  apply in_app_or in H. destruct H as [H|H].
  - apply In_nth_error in H. destruct H as [r H]. rewrite nth_firstn in H. exists 0%nat, r. unfold entry_at. cbn [nth_error]. exact H.
  - destruct (IHns _ H) as (k & r & E). exists (S k), r. exact E.
Qed.

(** Replacing one entry. *)
Lemma used_upd ns d k r e p : entry_at ns d k r = Some e -> nth_error d k = Some p ->
  exists A B, used ns d = A ++ e :: B /\
    forall p' e', p_ents p' = upd (p_ents p) r e' -> used ns (upd d k p') = A ++ e' :: B.
Proof.
  revert d k. induction ns; intros d k H P; [unfold entry_at in H; destruct k; discriminate|].
  destruct d as [|q d]; [destruct k; discriminate|]. destruct k.
  - cbn in P. injection P as ->. unfold entry_at in H. cbn [nth_error] in H. destruct (Nat.ltb_spec r a) as [L|]; [|discriminate].
    destruct (upd_split _ _ _ H) as (A & B & E & LA & U).
    exists A, (firstn (a - S r) B ++ used ns d). cbn [used upd].
    assert (F : forall x, firstn a (A ++ x :: B) = A ++ x :: firstn (a - S r) B).
    { intros x. rewrite firstn_app, LA. rewrite firstn_all2 by lia. replace (a - r)%nat with (S (a - S r)) by lia. reflexivity. }
    split.
    + rewrite E, F, <- app_assoc. reflexivity.
    + intros p' e' Hp. rewrite Hp, U, F, <- app_assoc. reflexivity.
  - cbn in P. destruct (IHns d k H P) as (A & B & E & U).
    exists (firstn a (p_ents q) ++ A), B. cbn [used upd]. split.
    + rewrite E, app_assoc. reflexivity.
    + intros p' e' Hp. rewrite (U p' e' Hp), app_assoc. reflexivity.
Qed.

Lemma used_ents_ext ns d d' : map p_ents d = map p_ents d' -> used ns d = used ns d'.
Proof.
  revert d d'. induction ns; intros [|p d] [|p' d'] H; cbn in *; try discriminate; auto.
  injection H as E1 E2. rewrite E1. f_equal. auto.
Qed.

Lemma map_upd {A B} (g : A -> B) l i v : map g (upd l i v) = upd (map g l) i (g v).
Proof. revert i. induction l; intros [|i]; cbn; auto. f_equal. apply IHl. Qed.

(** Number of entries satisfying a test. *)
Definition count (t : list Z -> bool) (l : list (list Z)) : Z := Z.of_nat (length (filter t l)).
Lemma count_app t a b : count t (a ++ b) = count t a + count t b.
Proof. unfold count. rewrite filter_app, app_length. lia. Qed.
Lemma count_cons t e l : count t (e :: l) = (if t e then 1 else 0) + count t l.
Proof. unfold count. cbn [filter]. destruct (t e); cbn [length]; lia. Qed.
Lemma count_le t l : 0 <= count t l <= Z.of_nat (length l).
Proof.
  unfold count. split; [lia|]. apply inj_le. induction l; cbn [filter]; [lia|]. destruct (t a); cbn [length]; lia.
Qed.

Lemma hget_ext h h' : length h = length h' -> (forall k, hget h k = hget h' k) -> h = h'.
Proof. intros L H. apply nth_ext with 0 0; [exact L|]. intros. apply H. Qed.
