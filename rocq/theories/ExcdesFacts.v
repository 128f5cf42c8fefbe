(** The criteria of Excdes.v, one by one: texts, ips, dates. *)
From Coq Require Import ZArith List Bool Lia Reals Lra.
From Flocq Require Import Core BinarySingleNaN.
From Verif Require Import Bits Flo FloatField FloatPack FloatDouble Convip ConvipFacts ConvipMain ConvipBack ConvipOld Excdes ExcdesSpec.
From Verif Require Dates.
Import ListNotations.
Open Scope Z_scope.
Open Scope opt_scope.

Lemma at_some {A} (l : list A) i x : at_ l i = Some x -> 0 <= i < Z.of_nat (length l) /\ nth_error l (Z.to_nat i) = Some x.
Proof.
  unfold at_. destruct (0 <=? i) eqn:E; [|discriminate]. intros H. apply Z.leb_le in E. split; [|exact H].
  apply nth_error_Some_length in H || (assert (nth_error l (Z.to_nat i) <> None) as N by congruence; apply nth_error_Some in N); lia.
Qed.
Lemma at_put {A} (l : list A) i j x : 0 <= i < Z.of_nat (length l) -> at_ (put l (Z.to_nat i) x) j = if j =? i then Some x else at_ l j.
Proof.
  intros H. unfold at_. destruct (Z.leb_spec 0 j); [|destruct (Z.eqb_spec j i); [lia|reflexivity]].
  assert (G : forall (l : list A) n m, (n < length l)%nat -> nth_error (put l n x) m = if Nat.eqb m n then Some x else nth_error l m).
  { clear. induction l as [|a l IH]; intros n m N; [cbn in N; lia|]. destruct n, m; cbn; try reflexivity. apply IH. cbn in N. lia. }
  rewrite G by lia. destruct (Z.eqb_spec j i) as [->|N]; [rewrite Nat.eqb_refl; reflexivity|].
  destruct (Nat.eqb_spec (Z.to_nat j) (Z.to_nat i)); [lia|reflexivity].
Qed.
Lemma put_length {A} (l : list A) n x : length (put l n x) = length l.
Proof. revert n. induction l; intros [|n]; cbn; auto. Qed.
Lemma put_nth {A} (l : list A) n m x d : (n < length l)%nat -> nth m (put l n x) d = if Nat.eqb m n then x else nth m l d.
Proof. revert n m. induction l as [|a l IH]; intros n m N; [cbn in N; lia|]. destruct n, m; cbn; try reflexivity. apply IH. cbn in N. lia. Qed.
Lemma at_in {A} (l : list A) i : 0 <= i < Z.of_nat (length l) -> exists x, at_ l i = Some x.
Proof.
  intros H. unfold at_. destruct (Z.leb_spec 0 i); [|lia]. destruct (nth_error l (Z.to_nat i)) eqn:E; [eauto|].
  apply nth_error_None in E. lia.
Qed.

(** * Texts *)
Lemma same_start_ok n : forall a s, (forall i, (i < n)%nat -> nth i a 0 <> 0) -> plain_text s ->
  same_start a s n = true <-> exists r, s = firstn n a ++ r.
Proof.
  induction n as [|n IH]; intros a s NZ P; cbn [same_start].
  { split; [intros _; exists s; reflexivity|reflexivity]. }
  destruct a as [|c a]; [exfalso; apply (NZ O); [lia|reflexivity]|]. pose proof (NZ O ltac:(lia)) as C. cbn [nth] in C.
  cbn [hd tl firstn]. destruct s as [|d s]; cbn [hd tl].
  - split; [|intros (r & E); discriminate]. intros H. apply andb_prop in H as [H _]. apply Z.eqb_eq in H. congruence.
  - inversion P; subst. destruct (Z.eqb_spec c d) as [->|N]; cbn [andb].
    + destruct (Z.eqb_spec d 0); [contradiction|]. cbn [orb]. rewrite IH; [|intros i I; apply (NZ (S i)); lia|assumption].
      split; intros (r & E); exists r; cbn [app] in *; congruence.
    + split; [discriminate|]. intros (r & E). cbn [app] in E. congruence.
Qed.
Lemma strlen_text s b : plain_text s -> strlen (s ++ 0 :: b) = length s.
Proof. induction 1; cbn; [reflexivity|]. destruct (Z.eqb_spec x 0); [contradiction|]. f_equal. assumption. Qed.
Lemma strlen_long s : plain_text s -> forall b, (length s <= strlen (s ++ b))%nat.
Proof. induction 1; intros b; cbn; [lia|]. destruct (Z.eqb_spec x 0); [contradiction|]. specialize (IHForall b). lia. Qed.

(** The area left by strncpy gives back the start of the text. *)
Lemma strncpy_ok n a s : (n < length a)%nat -> plain_text s -> forall t, plain_text t ->
  same_start (strncpy a s (S n)) t (Nat.min n (strlen (strncpy a s (S n)))) = true <-> begins n s t.
Proof.
  intros L PS t PT.
  assert (F : exists b, strncpy a s (S n) = firstn (S n) s ++ (if Nat.leb (length s) n then 0 :: b else b)).
  { unfold strncpy. destruct (Nat.leb_spec (length s) n) as [H|H].
    - rewrite firstn_app. rewrite (firstn_all2 s) by lia. replace (S n - length s)%nat with (S (n - length s)) by lia. cbn [repeat firstn].
      eexists. rewrite <- app_assoc. cbn [app]. reflexivity.
    - rewrite firstn_app. replace (S n - length s)%nat with O by lia. cbn [firstn]. rewrite app_nil_r. eexists. reflexivity. }
  destruct F as (b & F). rewrite F.
  assert (PF : forall k, plain_text (firstn k s)).
  { intros k. unfold plain_text in *. rewrite <- (firstn_skipn k s) in PS. apply Forall_app in PS as [PS _]. exact PS. }
  set (m := Nat.min n (strlen (firstn (S n) s ++ (if Nat.leb (length s) n then 0 :: b else b)))).
  assert (M : m = Nat.min n (length s)).
  { unfold m. destruct (Nat.leb_spec (length s) n) as [H|H].
    - rewrite strlen_text by apply PF. rewrite firstn_length. lia.
    - pose proof (strlen_long (firstn (S n) s) (PF _) b) as X. rewrite firstn_length in X. lia. }
  rewrite M. rewrite same_start_ok; [| |exact PT].
  - unfold begins. assert (E : firstn (Nat.min n (length s)) (firstn (S n) s ++ (if (length s <=? n)%nat then 0 :: b else b)) = firstn n s).
    { rewrite firstn_app. rewrite firstn_length. replace (Nat.min n (length s) - Nat.min (S n) (length s))%nat with O by lia. rewrite firstn_O, app_nil_r.
      rewrite firstn_firstn. destruct (Nat.le_ge_cases (length s) n).
      - rewrite !firstn_all2 by lia. reflexivity.
      - f_equal. lia. }
    rewrite E. reflexivity.
  - intros i I. assert (X : In (nth i (firstn (S n) s ++ (if (length s <=? n)%nat then 0 :: b else b)) 0) (firstn (S n) s)).
    { rewrite app_nth1 by (rewrite firstn_length; lia). apply nth_In. rewrite firstn_length. lia. }
    pose proof (PF (S n)) as Q. unfold plain_text in Q. rewrite Forall_forall in Q. exact (Q _ X).
Qed.

Definition char_shape (d : de_char) : Prop := length (c_data d) = 50%nat /\ Forall (fun a => length a = 13%nat) (c_data d).
Lemma copy_length n : forall areas texts, length (copy_texts n areas texts) = length areas.
Proof. induction areas; intros [|s texts]; cbn; auto. Qed.
Lemma copy_shape n : (n <= 13)%nat -> forall areas texts, Forall (fun a => length a = 13%nat) areas -> Forall (fun a => length a = 13%nat) (copy_texts n areas texts).
Proof.
  intros N. induction areas; intros [|s texts] F; cbn; auto. inversion F; subst. constructor; [|auto].
  unfold strncpy. rewrite app_length, firstn_length, app_length, repeat_length, skipn_length. lia.
Qed.
Lemma copy_first n : forall areas texts, (length texts <= length areas)%nat ->
  firstn (length texts) (copy_texts n areas texts) = map (fun p => strncpy (fst p) (snd p) n) (combine areas texts).
Proof. induction areas; intros [|s texts] L; cbn in *; try reflexivity; try lia. f_equal. apply IHareas. lia. Qed.

Lemma texts_ok n d texts nelm d' : (n <= 12)%nat -> char_shape d -> fill_texts (S n) d texts nelm = Some d' -> 1 <= nelm <= 50 -> Forall plain_text (firstn (Z.to_nat nelm) texts) ->
  char_shape d' /\ c_use d' = 1 /\ forall s, plain_text s -> match_texts n d' s = true <-> text_ok n (firstn (Z.to_nat nelm) texts) s.
Proof.
  intros N [L13 F13] H NE PT. unfold fill_texts in H. destruct (Z.ltb_spec (Z.of_nat (length texts)) nelm) as [|LT]; [discriminate|]. injection H as <-.
  set (l := firstn (Z.to_nat nelm) texts) in *.
  assert (LL : length l = Z.to_nat nelm) by (unfold l; rewrite firstn_length; lia).
  split; [|split; [reflexivity|]].
  { split; cbn [c_data]; [rewrite copy_length; exact L13|apply copy_shape; [lia|exact F13]]. }
  intros s PS. unfold match_texts, text_ok. cbn [c_data c_nelm]. rewrite orb_true_iff. rewrite <- LL. rewrite copy_first by lia.
  assert (A : (hd 0 (hd [] (copy_texts (S n) (c_data d) l)) =? 32) = true <-> exists r, hd [] l = 32 :: r).
  { destruct (c_data d) as [|a areas] eqn:E; [cbn in L13; lia|]. destruct l as [|t l']; [cbn in LL; lia|]. cbn [copy_texts hd].
    unfold strncpy. destruct t as [|c t]; cbn [app repeat firstn hd].
    - split; [intros X; apply Z.eqb_eq in X; discriminate|intros (r & X); discriminate].
    - rewrite Z.eqb_eq. split; [intros ->; eauto|intros (r & X); congruence]. }
  rewrite A. apply or_iff_compat_l. rewrite existsb_exists.
  assert (G : forall areas l, Forall (fun a => length a = 13%nat) areas -> (length l <= length areas)%nat -> Forall plain_text l ->
    (exists x, In x (map (fun p => strncpy (fst p) (snd p) (S n)) (combine areas l)) /\ same_start x s (Nat.min n (strlen x)) = true) <-> Exists (fun a => begins n a s) l).
  { clear - PS N. induction areas as [|a areas IH]; intros [|t l] FA LE FP; cbn [combine map length] in *; try lia.
    - split; [intros (x & [] & _)|intros X; inversion X].
    - split; [intros (x & [] & _)|intros X; inversion X].
    - inversion FA; subst. inversion FP; subst. rewrite Exists_cons. rewrite <- (IH l) by (assumption || lia). cbn [In fst snd].
      rewrite <- (strncpy_ok n a t) by (assumption || lia). split.
      + intros (x & [<-|I] & S); [left; exact S|right; eauto].
      + intros [S|(x & I & S)]; [eexists; split; [left; reflexivity|exact S]|exists x; auto]. }
  apply G; [exact F13|unfold text in *; lia|exact PT].
Qed.
