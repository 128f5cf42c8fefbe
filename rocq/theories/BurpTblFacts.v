(** Facts on the element tables of BurpTbl.v. *)
From Coq Require Import ZArith List Bool Lia Permutation Sorted.
From Verif Require Import Bits BitIO Xdf BurpTbl.
Import ListNotations.
Open Scope Z_scope.
Open Scope opt_scope.

(** Codes in increasing order. *)
Definition ordered (l : list elt) : Prop := forall i j a b, (i < j)%nat -> nth_error l i = Some a -> nth_error l j = Some b -> e_code a <= e_code b.

Lemma upd_len A (l : list A) i v : length (upd l i v) = length l.
Proof. revert i; induction l as [|x l IH]; intros [|i]; cbn [upd length]; congruence. Qed.
Lemma upd_nth A (l : list A) i v k :
  nth_error (upd l i v) k = if (k =? i)%nat then (match nth_error l i with Some _ => Some v | None => None end) else nth_error l k.
Proof.
  revert i k; induction l as [|x l IH]; intros i k.
  - cbn [upd]. destruct (k =? i)%nat; destruct k, i; reflexivity.
  - destruct i as [|i]; cbn [upd].
    + destruct k; reflexivity.
    + destruct k as [|k]; [reflexivity|]. cbn [nth_error Nat.eqb]. apply IH.
Qed.
Lemma upd_app A (a : list A) x c v : upd (a ++ x :: c) (length a) v = a ++ v :: c.
Proof. induction a as [|y a IH]; cbn [app length upd]; congruence. Qed.

Lemma upd_perm A (l : list A) i v x : nth_error l i = Some x -> Permutation (v :: l) (x :: upd l i v).
Proof.
  revert i; induction l as [|y l IH]; intros [|i] E; try discriminate; cbn [upd].
  - injection E as ->. apply perm_swap.
  - cbn [nth_error] in E. etransitivity; [apply perm_swap|]. etransitivity; [|apply perm_swap]. constructor. apply IH; exact E.
Qed.

Lemma swap_perm l i j : i <> j -> Permutation l (swap_cols l i j).
Proof.
  intros D. unfold swap_cols.
  destruct (nth_error l i) as [a|] eqn:EA; [|reflexivity].
  destruct (nth_error l j) as [b|] eqn:EB; [|reflexivity].
  apply (Permutation_cons_inv (a := b)).
  rewrite (upd_perm _ l i b a EA).
  assert (EB' : nth_error (upd l i b) j = Some b) by (rewrite upd_nth; destruct (Nat.eqb_spec j i); [congruence|exact EB]).
  apply (upd_perm _ (upd l i b) j a b EB').
Qed.

Lemma swap_len l i j : length (swap_cols l i j) = length l.
Proof.
  unfold swap_cols. destruct (nth_error l i); [|reflexivity]. destruct (nth_error l j); [|reflexivity].
  rewrite !upd_len. reflexivity.
Qed.

Lemma down_perm fuel m : (1 <= m)%nat -> forall l j, Permutation l (tri_down fuel l m j).
Proof.
  intros M. induction fuel as [|f IH]; intros l j; cbn [tri_down]; [reflexivity|].
  destruct (Nat.ltb_spec j m); [reflexivity|].
  destruct (nth_error l (j - m)) as [a|]; [|reflexivity]. destruct (nth_error l j) as [b|]; [|reflexivity].
  destruct (e_code a <? e_code b); [reflexivity|].
  rewrite <- IH. apply swap_perm. lia.
Qed.

Lemma pass_perm l m : (1 <= m)%nat -> Permutation l (tri_pass l m).
Proof.
  intros M. unfold tri_pass. generalize (seq m (length l - m)) as s. intros s.
  revert l; induction s as [|i s IH]; intros l; cbn [fold_left]; [reflexivity|].
  rewrite <- IH. apply down_perm; exact M.
Qed.

Lemma step_pos m : (1 <? m)%nat = true -> (1 <= (m + 2) / 3 < m)%nat.
Proof.
  intros E. apply Nat.ltb_lt in E. split.
  - apply (Nat.div_le_lower_bound (m + 2) 3 1); lia.
  - apply Nat.div_lt_upper_bound; lia.
Qed.

Lemma loop_perm fuel : forall l m, Permutation l (tri_loop fuel l m).
Proof.
  induction fuel as [|f IH]; intros l m; cbn [tri_loop]; [reflexivity|].
  destruct (1 <? m)%nat eqn:E; [|reflexivity].
  rewrite <- IH. apply pass_perm. apply step_pos in E. lia.
Qed.

Lemma qbrptri_perm l : Permutation l (qbrptri l).
Proof. apply loop_perm. Qed.

(** The last pass has step 1 and sorts. *)
Lemma down_one fuel : forall pre x post, (length pre < fuel)%nat ->
  exists p1 p2, pre = p1 ++ p2 /\ tri_down fuel (pre ++ x :: post) 1 (length pre) = p1 ++ x :: p2 ++ post /\
    Forall (fun y => e_code x <= e_code y) p2 /\ (forall q y, p1 = q ++ [y] -> e_code y < e_code x).
Proof.
  induction fuel as [|f IH]; intros pre x post L; [lia|].
  destruct (rev pre) as [|y r] eqn:R.
  - apply (f_equal (@rev elt)) in R. rewrite rev_involutive in R. subst pre. cbn [rev app length tri_down Nat.ltb Nat.leb].
    exists [], []. repeat split; try constructor. intros q y E. destruct q; discriminate.
  - apply (f_equal (@rev elt)) in R. rewrite rev_involutive in R. cbn [rev] in R.
    set (q := rev r) in R. clearbody q. subst pre.
    rewrite app_length in *. cbn [length] in *. cbn [tri_down].
    destruct (Nat.ltb_spec (length q + 1) 1); [lia|].
    replace (length q + 1 - 1)%nat with (length q) by lia.
    rewrite <- app_assoc. cbn [app].
    assert (EA : nth_error (q ++ y :: x :: post) (length q) = Some y) by (rewrite nth_error_app2, Nat.sub_diag by lia; reflexivity).
    assert (EB : nth_error (q ++ y :: x :: post) (length q + 1) = Some x).
    { rewrite nth_error_app2 by lia. replace (length q + 1 - length q)%nat with 1%nat by lia. reflexivity. }
    rewrite EA, EB. destruct (Z.ltb_spec (e_code y) (e_code x)) as [C|C].
    + exists (q ++ [y]), []. rewrite <- app_assoc. cbn [app]. repeat split; try constructor.
      * rewrite <- app_assoc. reflexivity.
      * intros q' y' E. apply app_inj_tail in E. destruct E as [_ <-]. exact C.
    + assert (SW : swap_cols (q ++ y :: x :: post) (length q) (length q + 1) = q ++ x :: y :: post).
      { unfold swap_cols. rewrite EA, EB, upd_app.
        replace (q ++ x :: x :: post) with ((q ++ [x]) ++ x :: post) by (rewrite <- app_assoc; reflexivity).
        replace (length q + 1)%nat with (length (q ++ [x])) by (rewrite app_length; reflexivity).
        rewrite upd_app, <- app_assoc. reflexivity. }
      rewrite SW. destruct (IH q x (y :: post)) as (p1 & p2 & -> & E & F & G); [lia|].
      exists p1, (p2 ++ [y]). rewrite E. repeat split.
      * rewrite app_assoc. reflexivity.
      * rewrite <- app_assoc. reflexivity.
      * apply Forall_app. split; [exact F|]. constructor; [lia|constructor].
      * exact G.
Qed.

Definition le_code (a b : elt) : Prop := e_code a <= e_code b.
Lemma le_code_trans : Relations_1.Transitive le_code.
Proof. intros a b c. unfold le_code. lia. Qed.

Lemma sorted_app (p1 p2 : list elt) : StronglySorted le_code (p1 ++ p2) <->
  StronglySorted le_code p1 /\ StronglySorted le_code p2 /\ forall a b, In a p1 -> In b p2 -> le_code a b.
Proof.
  induction p1 as [|x p1 IH]; cbn [app].
  - split; [intros H; repeat split; [constructor|exact H|intros a b []]|intros (_ & H & _); exact H].
  - split.
    + intros H. apply StronglySorted_inv in H as [H F]. apply IH in H as (A & B & C).
      apply Forall_app in F as [F1 F2]. repeat split; [constructor; assumption|exact B|].
      intros a b [<-|IA] IB; [|apply C; assumption]. rewrite Forall_forall in F2. apply F2; exact IB.
    + intros (A & B & C). apply StronglySorted_inv in A as [A F]. constructor.
      * apply IH. repeat split; try assumption. intros a b IA IB. apply C; [right; exact IA|exact IB].
      * apply Forall_app. split; [exact F|]. apply Forall_forall. intros b IB. apply C; [left; reflexivity|exact IB].
Qed.

Lemma insert_sorted p1 p2 x : StronglySorted le_code (p1 ++ p2) ->
  Forall (fun y => e_code x <= e_code y) p2 -> (forall q y, p1 = q ++ [y] -> e_code y < e_code x) ->
  StronglySorted le_code (p1 ++ x :: p2).
Proof.
  intros S F G. apply sorted_app in S as (A & B & C). apply sorted_app. repeat split.
  - exact A.
  - constructor; [exact B|exact F].
  - intros a b IA IB. destruct IB as [<-|IB]; [|apply C; assumption].
    destruct (rev p1) as [|y r] eqn:R.
    + apply (f_equal (@rev elt)) in R. rewrite rev_involutive in R. subst p1. destruct IA.
    + apply (f_equal (@rev elt)) in R. rewrite rev_involutive in R. cbn [rev] in R.
      specialize (G _ _ R). rewrite R in IA, A. apply in_app_or in IA. unfold le_code.
      destruct IA as [IA|[<-|[]]]; [|lia].
      apply sorted_app in A as (_ & _ & A). specialize (A a y IA (or_introl eq_refl)). unfold le_code in A. lia.
Qed.

Lemma pass_one_from : forall post pre n, StronglySorted le_code pre -> n = length post ->
  StronglySorted le_code (fold_left (fun l i => tri_down (S (length l)) l 1 i) (seq (length pre) n) (pre ++ post)).
Proof.
  induction post as [|x post IH]; intros pre n S ->; cbn [length seq fold_left].
  - rewrite app_nil_r. exact S.
  - destruct (down_one (Datatypes.S (length (pre ++ x :: post))) pre x post) as (p1 & p2 & E & -> & F & G).
    { rewrite app_length. lia. }
    assert (LE : Datatypes.S (length pre) = length (p1 ++ x :: p2)) by (rewrite E, !app_length; cbn [length]; lia).
    rewrite LE. replace (p1 ++ x :: p2 ++ post) with ((p1 ++ x :: p2) ++ post) by (rewrite <- app_assoc; reflexivity).
    apply IH; [|reflexivity]. apply insert_sorted; [rewrite <- E; exact S|exact F|exact G].
Qed.

Lemma pass_one l : StronglySorted le_code (tri_pass l 1).
Proof.
  unfold tri_pass. destruct l as [|x l]; [constructor|].
  cbn [length]. rewrite Nat.sub_succ, Nat.sub_0_r. 
  change (x :: l) with ([x] ++ l). change 1%nat with (length [x]) at 2. apply pass_one_from; [|reflexivity].
  repeat constructor.
Qed.

Lemma loop_sorted fuel : forall l m, (1 < m)%nat -> (m <= fuel)%nat -> StronglySorted le_code (tri_loop fuel l m).
Proof.
  induction fuel as [|f IH]; intros l m M L; [lia|]. cbn [tri_loop].
  assert (E : (1 <? m)%nat = true) by (apply Nat.ltb_lt; exact M). rewrite E. apply step_pos in E. cbv zeta.
  destruct (Nat.eq_dec ((m + 2) / 3) 1) as [O|O].
  - rewrite O. destruct f; cbn [tri_loop]; apply pass_one.
  - apply IH; lia.
Qed.

Lemma qbrptri_sorted l : StronglySorted le_code (qbrptri l).
Proof.
  unfold qbrptri. destruct (Nat.ltb_spec 1 (length l)) as [L|L].
  - apply loop_sorted; lia.
  - destruct l as [|x [|y l]]; cbn [length] in L; [constructor| |lia]. repeat constructor.
Qed.

(** The search. *)
Lemma sorted_nth l : StronglySorted le_code l -> ordered l.
Proof.
  induction 1 as [|x l S IH F]; intros i j a b L EA EB.
  - destruct i; discriminate.
  - destruct j as [|j]; [lia|]. cbn [nth_error] in EB. destruct i as [|i]; cbn [nth_error] in EA.
    + injection EA as <-. rewrite Forall_forall in F. apply F. eapply nth_error_In; exact EB.
    + apply (IH i j a b); [lia|exact EA|exact EB].
Qed.

Lemma chr_loop_sound fuel l elem : forall d f j, (d < f)%nat -> chr_loop fuel l elem d f = Some j ->
  j = -1 \/ exists e, 0 < j /\ nth_error l (Z.to_nat (j - 1)) = Some e /\ e_code e = elem.
Proof.
  induction fuel as [|fu IH]; intros d f j LT E; [discriminate|]. cbn [chr_loop] in E. cbv zeta in E.
  destruct (Nat.eqb_spec d ((d + f) / 2)) as [Q|Q]; [left; congruence|].
  destruct (nth_error l ((d + f) / 2 - 1)) as [e|] eqn:N; [|discriminate]. cbn [bind] in E.
  destruct (Z.eqb_spec elem (e_code e)) as [C|C].
  - right. exists e.
    assert (j = Z.of_nat ((d + f) / 2)) as -> by congruence.
    destruct ((d + f) / 2)%nat as [|mid] eqn:MID.
    + exfalso. apply Nat.div_small_iff in MID; lia.
    + split; [lia|]. split; [|congruence]. replace (Z.to_nat (Z.of_nat (S mid) - 1)) with (S mid - 1)%nat by lia. exact N.
  - assert (d <= (d + f) / 2)%nat by (apply Nat.div_le_lower_bound; lia).
    assert ((d + f) / 2 < f)%nat by (apply Nat.div_lt_upper_bound; lia).
    destruct (e_code e <? elem); apply IH in E; try lia; exact E.
Qed.

Lemma chr_loop_total fuel l elem : forall d f, (d < f)%nat -> (f <= S (length l))%nat -> (f - d <= fuel)%nat ->
  exists j, chr_loop fuel l elem d f = Some j.
Proof.
  induction fuel as [|fu IH]; intros d f L1 L2 L3; [lia|]. cbn [chr_loop]. cbv zeta.
  destruct (Nat.eqb_spec d ((d + f) / 2)) as [Q|Q]; [eexists; reflexivity|].
  assert (d <= (d + f) / 2)%nat by (apply Nat.div_le_lower_bound; lia).
  assert ((d + f) / 2 < f)%nat by (apply Nat.div_lt_upper_bound; lia).
  destruct (nth_error l ((d + f) / 2 - 1)) as [e|] eqn:N.
  2: { apply nth_error_None in N. lia. }
  cbn [bind]. destruct (elem =? e_code e); [eexists; reflexivity|].
  destruct (e_code e <? elem); apply IH; lia.
Qed.

Lemma chr_loop_finds fuel l elem : ordered l -> forall d f k e, nth_error l k = Some e -> e_code e = elem ->
  (d <= k)%nat -> (S k < f)%nat -> (f - d <= fuel)%nat -> chr_loop fuel l elem d f <> Some (-1).
Proof.
  intros O. induction fuel as [|fu IH]; intros d f k e N C L1 L2 L3; [lia|]. cbn [chr_loop]. cbv zeta.
  destruct (Nat.eqb_spec d ((d + f) / 2)) as [Q|Q].
  { assert (d + 1 <= (d + f) / 2)%nat by (apply Nat.div_le_lower_bound; lia). lia. }
  assert (d <= (d + f) / 2)%nat by (apply Nat.div_le_lower_bound; lia).
  assert ((d + f) / 2 < f)%nat by (apply Nat.div_lt_upper_bound; lia).
  set (mid := ((d + f) / 2)%nat) in *. clearbody mid.
  destruct (nth_error l (mid - 1)) as [g|] eqn:G; [|discriminate]. cbn [bind].
  destruct (Z.eqb_spec elem (e_code g)) as [C2|C2].
  { intros X. assert (Z.of_nat mid = -1) by congruence. lia. }
  destruct (Z.ltb_spec (e_code g) elem) as [C3|C3].
  - apply (IH mid f k e N C); try lia.
    destruct (Nat.le_gt_cases mid k) as [|B]; [assumption|]. exfalso.
    destruct (Nat.eq_dec k (mid - 1)) as [->|D]; [congruence|].
    pose proof (O k (mid - 1)%nat e g ltac:(lia) N G). lia.
  - apply (IH d mid k e N C); try lia.
    destruct (Nat.le_gt_cases mid (S k)) as [B|]; [|assumption]. exfalso.
    destruct (Nat.eq_dec k (mid - 1)) as [->|D]; [congruence|].
    pose proof (O (mid - 1)%nat k g e ltac:(lia) G N). lia.
Qed.

Lemma bufrchr_found l c e : ordered l -> In e l -> e_code e = c ->
  exists j g, bufrchr c l = Some j /\ 0 < j /\ nth_error l (Z.to_nat (j - 1)) = Some g /\ e_code g = c.
Proof.
  intros O I C. destruct (In_nth_error _ _ I) as [k N].
  assert (L : (k < length l)%nat) by (apply nth_error_Some; congruence).
  unfold bufrchr. destruct (chr_loop_total (S (length l)) l c 0 (S (length l))) as [j E]; try lia.
  pose proof (chr_loop_finds (S (length l)) l c O 0 (S (length l)) k e N C) as F.
  destruct (chr_loop_sound _ _ _ _ _ _ (Nat.lt_0_succ _) E) as [->|(g & A & B & D)].
  - exfalso. apply F; try lia. exact E.
  - exists j, g. repeat split; assumption.
Qed.

Lemma bufrchr_absent l c : (forall e, In e l -> e_code e <> c) -> bufrchr c l = Some (-1).
Proof.
  intros H. unfold bufrchr. destruct (chr_loop_total (S (length l)) l c 0 (S (length l))) as [j E]; try lia.
  destruct (chr_loop_sound _ _ _ _ _ _ (Nat.lt_0_succ _) E) as [->|(g & A & B & D)]; [exact E|].
  exfalso. apply (H g); [eapply nth_error_In; exact B|exact D].
Qed.
