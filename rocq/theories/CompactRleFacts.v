(** Lemmas about the run-length packer. *)
From Coq Require Import ZArith List Lia Bool.
From Verif Require Import Bits BitIO BitIOFacts CompactInt CompactIntFacts SpecPack CompactIntMain CompactIntMain2 CompactRle.
Import ListNotations.
Open Scope Z_scope.
Open Scope opt_scope.

(** Pure decoding of a token list: (previous token, output). *)
Definition dec_step (R : Z) (st : Z * list Z) (t : Z) : Z * list Z :=
  let '(prev, out) := st in
  if t <=? R then (t, out ++ [t]) else (t, out ++ repeat prev (Z.to_nat (t - R - 1))).
Definition dec (R : Z) (st : Z * list Z) (l : list Z) := fold_left (dec_step R) l st.

Lemma dec_app R st l m : dec R st (l ++ m) = dec R (dec R st l) m.
Proof. apply fold_left_app. Qed.

Lemma rle_loop_app R M st l m :
  rle_loop R M st (l ++ m) =
  let '(o, st1) := rle_loop R M st l in let '(o', st2) := rle_loop R M st1 m in (o ++ o', st2).
Proof.
  revert st. induction l as [|x l IH]; intros st; simpl.
  - destruct (rle_loop R M st m). reflexivity.
  - destruct (rle_step R M st x) as [o1 st1]. rewrite IH. destruct (rle_loop R M st1 l) as [o2 st2].
    destruct (rle_loop R M st2 m) as [o3 st3]. rewrite app_assoc. reflexivity.
Qed.

Lemma repeat_snoc {A} (x : A) n : repeat x n ++ [x] = repeat x (S n).
Proof. induction n; simpl; auto. rewrite IHn. reflexivity. Qed.

Definition lim (b : nat) := 2 ^ Z.of_nat b.

(** Invariant of the packing loop. *)
Record inv (b : nat) (R M junk : Z) (P E : list Z) (p c : Z) : Prop := {
  i_c : 1 <= c;
  i_dec : exists q out, dec R (junk, []) E = (q, out) /\ out ++ repeat p (Z.to_nat (c - 1)) = P /\
          (p <> no_token -> q = p /\ exists o', out = o' ++ [p]);
  i_lim : p <> no_token -> c < M /\ 0 <= p <= R;
  i_none : p = no_token -> c = 1;
  i_tok : Forall (fun t => 0 <= t < lim b) E;
  i_len : Z.of_nat (length E) + (c - 1) <= Z.of_nat (length P)
}.

Lemma dec_code R st c : 2 <= c -> 0 <= R -> dec R st [R + c] = (R + c, snd st ++ repeat (fst st) (Z.to_nat (c - 1))).
Proof.
  intros. unfold dec. cbn [fold_left]. unfold dec_step. destruct st as [p o].
  replace (R + c <=? R) with false by (symmetry; apply Z.leb_gt; lia). cbn [fst snd].
  replace (R + c - R - 1) with (c - 1) by lia. reflexivity.
Qed.
Lemma dec_lit R st t : t <= R -> dec R st [t] = (t, snd st ++ [t]).
Proof.
  intros. unfold dec. cbn [fold_left]. unfold dec_step. destruct st as [p o].
  replace (t <=? R) with true by (symmetry; apply Z.leb_le; lia). reflexivity.
Qed.

Lemma step_inv b R M junk P E p c x :
  (b <= 31)%nat -> 0 <= R -> M = 2 ^ Z.of_nat b - 1 - R -> 2 <= M ->
  inv b R M junk P E p c -> 0 <= x <= R ->
  let '(o, (p', c')) := rle_step R M (p, c) x in inv b R M junk (P ++ [x]) (E ++ o) p' c'.
Proof.
  intros Hb HR HM HM2 I Hx. destruct I as [Ic (q & out & Hd & Hp & Hq) Il In It Ilen].
  assert (Hpow : 2 ^ Z.of_nat b <= 2 ^ 31) by (apply Z.pow_le_mono_r; lia).
  assert (Hnt : forall y, 0 <= y <= R -> y <> no_token) by (intros; unfold no_token; lia).
  unfold rle_step. destruct (Z.eqb_spec x p) as [->|Hne]; cbn [negb].
  - (* repeated *)
    assert (Hpn : p <> no_token) by auto. destruct (Il Hpn) as [Hc Hpr]. destruct (Hq Hpn) as [-> Ho].
    destruct (Z.eqb_spec (c + 1) M).
    + constructor.
      * lia.
      * rewrite dec_app, Hd. exists (R + M), (out ++ repeat p (Z.to_nat (M - 1))).
        unfold u32. rewrite Z.mod_small by lia. rewrite dec_code by lia. cbn [fst snd].
        split; [reflexivity|]. split; [|congruence].
        change (Z.to_nat (1 - 1)) with 0%nat. cbn [repeat]. rewrite app_nil_r, <- Hp, <- app_assoc, repeat_snoc.
        f_equal. f_equal. lia.
      * congruence.
      * auto.
      * apply Forall_app. split; auto. constructor; [|constructor]. unfold lim, u32. rewrite Z.mod_small by lia. lia.
      * rewrite !app_length. cbn [length]. lia.
    + rewrite app_nil_r. constructor.
      * lia.
      * exists p, out. split; auto. split; [|auto].
        rewrite <- Hp, <- app_assoc, repeat_snoc. f_equal. f_equal. lia.
      * intros _. split; [lia|auto].
      * intros; contradiction.
      * auto.
      * rewrite app_length. cbn [length]. lia.
  - (* new token *)
    assert (Hx31 : 0 <= x < lim b) by (unfold lim; lia).
    destruct (Z.eqb_spec c 1) as [->|Hc1]; [|destruct (Z.eqb_spec c 2) as [->|Hc2]].
    + change (Z.to_nat (1 - 1)) with 0%nat in Hp. cbn [repeat] in Hp. rewrite app_nil_r in Hp. constructor.
      * lia.
      * rewrite dec_app, Hd, dec_lit by lia. cbn [fst snd]. do 2 eexists. split; [reflexivity|]. split; [|split; [auto|eexists; reflexivity]].
        change (Z.to_nat (1 - 1)) with 0%nat. cbn [repeat]. rewrite app_nil_r, Hp. reflexivity.
      * intros _. lia.
      * auto.
      * apply Forall_app. split; auto.
      * rewrite !app_length. cbn [length]. lia.
    + assert (Hpn : p <> no_token) by (intros A; apply In in A; lia). destruct (Il Hpn) as [Hc Hpr].
      destruct (Hq Hpn) as [-> Ho]. change (Z.to_nat (2 - 1)) with 1%nat in Hp. cbn [repeat] in Hp. constructor.
      * lia.
      * rewrite dec_app, Hd. change [p; x] with ([p] ++ [x]). rewrite dec_app, !dec_lit by lia. cbn [fst snd].
        do 2 eexists. split; [reflexivity|]. split; [|split; [auto|eexists; reflexivity]].
        change (Z.to_nat (1 - 1)) with 0%nat. cbn [repeat]. rewrite app_nil_r, Hp. reflexivity.
      * intros _. lia.
      * auto.
      * apply Forall_app. split; auto. constructor; [unfold lim; lia|auto].
      * rewrite !app_length. cbn [length]. lia.
    + assert (Hpn : p <> no_token) by (intros A; apply In in A; lia). destruct (Il Hpn) as [Hc Hpr].
      destruct (Hq Hpn) as [-> Ho]. unfold u32. rewrite Z.mod_small by lia. constructor.
      * lia.
      * rewrite dec_app, Hd. change [R + c; x] with ([R + c] ++ [x]). rewrite dec_app, dec_code by lia.
        rewrite dec_lit by lia. cbn [fst snd].
        do 2 eexists. split; [reflexivity|]. split; [|split; [auto|eexists; reflexivity]].
        change (Z.to_nat (1 - 1)) with 0%nat. cbn [repeat]. rewrite app_nil_r, Hp. reflexivity.
      * intros _. lia.
      * auto.
      * apply Forall_app. split; auto. constructor; [unfold lim; lia|auto].
      * rewrite !app_length. cbn [length]. lia.
Qed.

Lemma loop_inv b R M junk l : forall P E p c,
  (b <= 31)%nat -> 0 <= R -> M = 2 ^ Z.of_nat b - 1 - R -> 2 <= M ->
  inv b R M junk P E p c -> Forall (fun x => 0 <= x <= R) l ->
  let '(o, (p', c')) := rle_loop R M (p, c) l in inv b R M junk (P ++ l) (E ++ o) p' c'.
Proof.
  induction l as [|x l IH]; intros P E p c Hb HR HM HM2 I F; cbn [rle_loop].
  - rewrite !app_nil_r. exact I.
  - inversion F as [|? ? Hx F']; subst. 
    pose proof (step_inv b R (2 ^ Z.of_nat b - 1 - R) junk P E p c x Hb HR eq_refl HM2 I Hx) as S1.
    destruct (rle_step R (2 ^ Z.of_nat b - 1 - R) (p, c) x) as [o1 [p1 c1]].
    specialize (IH (P ++ [x]) (E ++ o1) p1 c1 Hb HR eq_refl HM2 S1 F').
    destruct (rle_loop R (2 ^ Z.of_nat b - 1 - R) (p1, c1) l) as [o2 [p2 c2]].
    rewrite <- !app_assoc in IH. exact IH.
Qed.

(** All tokens of an array [P ++ [z]]. *)
Lemma tokens_spec b R M junk P z :
  (b <= 31)%nat -> 0 <= R -> M = 2 ^ Z.of_nat b - 1 - R -> 2 <= M ->
  Forall (fun x => 0 <= x <= R) (P ++ [z]) ->
  (forall l x, P = l ++ [x; x] -> z = x) ->
  exists E, rle_tokens R M (P ++ [z]) = Some E /\
    snd (dec R (junk, []) E) = P ++ [z] /\
    Forall (fun t => 0 <= t < lim b) E /\ (length E <= length (P ++ [z]))%nat.
Proof.
  intros Hb HR HM HM2 F Hpend. apply Forall_app in F. destruct F as [F Fz]. inversion Fz as [|? ? Hz _]; subst.
  unfold rle_tokens. rewrite rev_app_distr. cbn [rev app]. rewrite rev_involutive.
  pose proof (loop_inv b R (2 ^ Z.of_nat b - 1 - R) junk P [] [] no_token 1 Hb HR eq_refl HM2) as L.
  destruct (rle_loop R (2 ^ Z.of_nat b - 1 - R) (no_token, 1) P) as [E [p c]].
  cbn [app] in L. destruct L as [Ic (q & out & Hd & Hp & Hq) Il In It Ilen]; auto.
  { constructor; try lia; auto; try congruence. exists junk, []. split; auto. split; auto. congruence. }
  assert (Hpow : 2 ^ Z.of_nat b <= 2 ^ 31) by (apply Z.pow_le_mono_r; lia).
  eexists. split; [reflexivity|]. unfold rle_last.
  destruct (Z.eqb_spec z p) as [->|Hne]; cbn [negb].
  - assert (Hpn : p <> no_token) by (unfold no_token; lia). destruct (Il Hpn) as [Hc Hpr]. destruct (Hq Hpn) as [-> Ho].
    destruct (Z.eqb_spec (c + 1) 2).
    + replace c with 1 in * by lia. change (Z.to_nat (1 - 1)) with 0%nat in Hp. cbn [repeat] in Hp. rewrite app_nil_r in Hp.
      split; [rewrite dec_app, Hd, dec_lit by lia; cbn [snd]; rewrite Hp; reflexivity|].
      split; [apply Forall_app; split; auto; constructor; [unfold lim; lia|auto]|].
      rewrite !app_length. cbn [length]. lia.
    + unfold u32. rewrite Z.mod_small by lia.
      split; [rewrite dec_app, Hd, dec_code by lia; cbn [fst snd]; rewrite <- Hp, <- app_assoc, repeat_snoc; f_equal; f_equal; lia|].
      split; [apply Forall_app; split; auto; constructor; [unfold lim; lia|auto]|].
      rewrite !app_length. cbn [length]. lia.
  - assert (c = 1).
    { destruct (Z.eq_dec p no_token) as [A|A]; [auto|]. destruct (Z.eq_dec c 1) as [|C]; [auto|exfalso].
      destruct (Hq A) as [-> (o' & ->)]. apply Hne.
      replace (Z.to_nat (c - 1)) with (S (Z.to_nat (c - 2))) in Hp by lia.
      destruct (Z.to_nat (c - 2)) as [|m].
      - apply (Hpend o' p). rewrite <- Hp, <- app_assoc. reflexivity.
      - apply (Hpend (o' ++ [p] ++ repeat p m) p). rewrite <- Hp. rewrite <- !app_assoc. f_equal. cbn [app].
        f_equal. cbn [repeat]. change (p :: p :: repeat p m) with (repeat p (2 + m)).
        change [p; p] with (repeat p 2). rewrite <- repeat_app. f_equal. lia. }
    subst c. change (Z.to_nat (1 - 1)) with 0%nat in Hp. cbn [repeat] in Hp. rewrite app_nil_r in Hp.
    split; [rewrite dec_app, Hd, dec_lit by lia; cbn [snd]; rewrite Hp; reflexivity|].
    split; [apply Forall_app; split; auto; constructor; [unfold lim; lia|auto]|].
    rewrite !app_length. cbn [length]. lia.
Qed.
