(** The sets of criteria after any history of calls, and the verdict on a record. *)
From Coq Require Import ZArith List Bool Lia.
From Verif Require Import Bits Excdes ExcdesSpec ExcdesFacts ExcdesIp ExcdesDates.
Import ListNotations.
Open Scope Z_scope.
Open Scope opt_scope.

(** * A set of the model and a set of the specification *)
Definition rel_texts (n : nat) (d : de_char) (o : option (list text)) : Prop :=
  match o with None => c_use d = 0 | Some l => c_use d <> 0 /\ forall s, plain_text s -> match_texts n d s = true <-> text_ok n l s end.
Definition rel_ip (d : de_int) (o : option (list Z)) : Prop :=
  match o with None => i_use d = 0 | Some l => i_use d <> 0 /\ forall ip tr, word ip -> match_ips d ip tr = true <-> ip_ok tr l ip end.
Definition rel_dates (d : de_int) (o : option (list Z)) : Prop :=
  match o with None => i_use d = 0 | Some l => i_use d <> 0 /\ forall date, word date -> off_step l date -> exists b, match_dates d date = Some b /\ (b = true <-> date_ok l date) end.
Definition rel_suppl (r : request) (o : option suppl) : Prop :=
  match o with None => r_supp_use r = 0 | Some s => r_supp_use r <> 0 /\ forall q, match_suppl (r_supp r) q = true <-> suppl_ok s q end.
Record rel_set (r : request) (x : sset) : Prop := {
  rs_on : r_use r <> 0 <-> on x = true;
  rs_want : on x = true -> r_exdes r = if want x then DESIRE else EXCLURE;
  rs_etik : rel_texts 12 (r_etik r) (x_etik x);
  rs_nom : rel_texts 4 (r_nom r) (x_nom x);
  rs_typ : rel_texts 2 (r_typ r) (x_typ x);
  rs_date : rel_dates (r_dates r) (x_date x);
  rs_ip1 : rel_ip (r_ip1 r) (x_ip1 x);
  rs_ip2 : rel_ip (r_ip2 r) (x_ip2 x);
  rs_ip3 : rel_ip (r_ip3 r) (x_ip3 x);
  rs_suppl : rel_suppl r (x_suppl x) }.
Record shape (r : request) : Prop := {
  sh_etik : char_shape (r_etik r); sh_nom : char_shape (r_nom r); sh_typ : char_shape (r_typ r);
  sh_date : length (i_data (r_dates r)) = 50%nat; sh_ip1 : length (i_data (r_ip1 r)) = 50%nat; sh_ip2 : length (i_data (r_ip2 r)) = 50%nat; sh_ip3 : length (i_data (r_ip3 r)) = 50%nat }.
Definition shaped (t : table) : Prop := length (t_req t) = 50%nat /\ Forall shape (t_req t).
Record same_state (t : table) (s : sstate) : Prop := {
  ss_off : t_off t = off s; ss_lo : t_first t = lo s; ss_hi : t_last t = hi s; ss_cur : t_bundle t = cur s; ss_mode : t_desire t = if mode s then 1 else 0;
  ss_range : 0 <= lo s /\ lo s <= hi s <= 49;
  ss_sets : forall n r, at_ (t_req t) n = Some r -> rel_set r (sets s n) }.
Definition inv (t : table) (s : sstate) : Prop := shaped t /\ (t_fresh t = true -> t_bundle t = -1) /\ same_state (ready t) s.

Lemma reset_char_shape n d : (n <= 12)%nat -> char_shape d -> char_shape (reset_char n d).
Proof.
  intros N [L F]. split; cbn [reset_char c_data]; [rewrite map_length; exact L|]. apply Forall_map. eapply Forall_impl; [|exact F]. cbn beta. intros a A.
  rewrite app_length, repeat_length. cbn [length]. rewrite skipn_length. lia.
Qed.
Lemma reset_shape k r : shape r -> shape (reset_one k r).
Proof.
  intros []. constructor; cbn [reset_one r_etik r_nom r_typ r_dates r_ip1 r_ip2 r_ip3];
    match goal with |- context[if ?b then _ else _] => destruct b end; auto; try (apply reset_char_shape; [lia|assumption]).
Qed.
Lemma put_forall {A} (P : A -> Prop) l n x : Forall P l -> P x -> Forall P (put l n x).
Proof. intros F X. revert n. induction F; intros [|n]; cbn [put]; constructor; auto. Qed.
Lemma init_shaped t : shaped t -> shaped (requetes_init t).
Proof. intros [L F]. split; cbn [requetes_init t_req]; [rewrite map_length; exact L|]. apply Forall_map. eapply Forall_impl; [|exact F]. intros r. apply reset_shape. Qed.
Lemma ready_shaped t : shaped t -> shaped (ready t).
Proof. intros S. unfold ready. destruct (t_fresh t); [apply init_shaped; exact S|exact S]. Qed.
Lemma ready_ready t : ready (ready t) = ready t.
Proof. unfold ready. destruct (t_fresh t) eqn:E; [reflexivity|]. rewrite E. reflexivity. Qed.
Lemma ready_fresh t : t_fresh (ready t) = false.
Proof. unfold ready. destruct (t_fresh t) eqn:E; [reflexivity|exact E]. Qed.
Lemma ready_id t : t_fresh t = false -> ready t = t. Proof. unfold ready. intros ->. reflexivity. Qed.

Lemma cleared_none r x : on x = false -> x_etik x = None -> x_nom x = None -> x_typ x = None -> x_date x = None -> x_ip1 x = None -> x_ip2 x = None -> x_ip3 x = None -> x_suppl x = None ->
  rel_set (reset_one keep_none r) x.
Proof.
  intros O A B C D E F G H. constructor; rewrite ?A, ?B, ?C, ?D, ?E, ?F, ?G, ?H; cbn; try reflexivity; [|intros; congruence]. rewrite O. split; [intros X; exfalso; apply X; reflexivity|discriminate].
Qed.
Lemma no_set_rel r : rel_set (reset_one keep_none r) no_set. Proof. apply cleared_none; reflexivity. Qed.
Lemma at_map {A B} (f : A -> B) l i y : at_ (map f l) i = Some y -> exists x, at_ l i = Some x /\ y = f x.
Proof. unfold at_. destruct (0 <=? i); [|discriminate]. rewrite nth_error_map. destruct (nth_error l _) as [x|]; cbn; [|discriminate]. intros E. injection E as <-. eauto. Qed.
Lemma init_same t : same_state (requetes_init t) (no_sets (t_off t)).
Proof.
  constructor; cbn; try reflexivity; try lia. intros n r H. apply at_map in H as (x & _ & ->). apply no_set_rel.
Qed.
Lemma start_inv : inv start (no_sets false).
Proof.
  split; [|split; [reflexivity|apply (init_same start)]]. split; [reflexivity|]. apply Forall_forall. intros r I. apply repeat_spec in I. subst r.
  constructor; try reflexivity; (split; [reflexivity|]; apply Forall_forall; intros a I; apply repeat_spec in I; subst a; reflexivity).
Qed.

(** * Each call *)
(** A fresh table stands for sets without criteria. *)
Definition all_clear (s : sstate) : Prop := forall n, 0 <= n < 50 -> rel_set (reset_one keep_none start_request) (sets s n).
Lemma rel_set_ext r x y : rel_set r x -> on x = on y -> want x = want y -> x_etik x = x_etik y -> x_nom x = x_nom y -> x_typ x = x_typ y -> x_date x = x_date y -> x_ip1 x = x_ip1 y -> x_ip2 x = x_ip2 y -> x_ip3 x = x_ip3 y -> x_suppl x = x_suppl y -> rel_set r y.
Proof. destruct x, y; cbn. intros H -> -> -> -> -> -> -> -> -> ->. exact H. Qed.
Lemma reset_rel k r x : rel_set r x -> rel_set (reset_one k r) (without x k).
Proof.
  intros []. constructor; cbn [reset_one without on want x_etik x_nom x_typ x_date x_ip1 x_ip2 x_ip3 x_suppl r_use r_exdes r_etik r_nom r_typ r_dates r_ip1 r_ip2 r_ip3 r_supp_use rel_suppl];
    try (match goal with |- context[if ?b then _ else _] => destruct b end; [assumption|reflexivity]); [|discriminate|reflexivity].
  split; [intros X; exfalso; apply X; reflexivity|discriminate].
Qed.
Lemma reset_clear k r x : rel_set (reset_one keep_none r) x -> rel_set (reset_one keep_none (reset_one k r)) (without x k).
Proof.
  intros []. assert (Q : forall n d o, rel_texts n (reset_char n d) o -> o = None) by (intros n d [l|] H; [destruct H as [H _]; exfalso; apply H; reflexivity|reflexivity]).
  assert (Q2 : forall d o, rel_ip (reset_int d) o -> o = None) by (intros d [l|] H; [destruct H as [H _]; exfalso; apply H; reflexivity|reflexivity]).
  assert (Q3 : forall d o, rel_dates (reset_int d) o -> o = None) by (intros d [l|] H; [destruct H as [H _]; exfalso; apply H; reflexivity|reflexivity]).
  apply cleared_none; cbn; try reflexivity; match goal with |- (if ?b then _ else _) = None => destruct b end; try reflexivity; first [exact (Q _ _ _ rs_etik0)|exact (Q _ _ _ rs_nom0)|exact (Q _ _ _ rs_typ0)|exact (Q3 _ _ rs_date0)|exact (Q2 _ _ rs_ip4)|exact (Q2 _ _ rs_ip5)|exact (Q2 _ _ rs_ip6)].
Qed.

Lemma forget_inv t s n k st t' : inv t s -> run_call t (Forget n k) = Some (st, t') -> 0 <= st -> inv t' (after s (Forget n k)).
Proof.
  intros (SH & FB & SS) H ST. cbn [run_call after] in *. unfold requetes_reset in H. destruct (_ <? n); [injection H as <- _; lia|].
  destruct (at_ (t_req t) n) as [r|] eqn:E; [|discriminate]. cbn [bind] in H. injection H as <- <-. apply at_some in E as N. destruct N as [N _]. destruct SH as [L F].
  assert (R : shape r) by (rewrite Forall_forall in F; apply F; apply at_some in E as [_ E]; eapply nth_error_In; exact E).
  split; [split; cbn [with_req t_req]; [rewrite put_length; exact L|apply put_forall; [exact F|apply reset_shape; exact R]]|].
  split; [exact FB|].
  destruct SS. unfold ready in *. cbn [with_req t_fresh]. destruct (t_fresh t) eqn:FR.
  - constructor; cbn [requetes_init with_req with_set t_off t_first t_last t_bundle t_desire t_req off lo hi cur mode sets] in *; try assumption.
    intros m q Q. apply at_map in Q as (x & Q & ->). rewrite at_put in Q by exact N.
    assert (RB : forall m x, at_ (t_req t) m = Some x -> rel_set (reset_one keep_none x) (sets s m)).
    { intros m' x' H. apply ss_sets0. unfold at_ in *. destruct (0 <=? m'); [|discriminate]. rewrite nth_error_map, H. reflexivity. }
    destruct (m =? n) eqn:MN; [|apply RB; exact Q]. injection Q as <-. apply reset_clear. apply RB. exact E.
  - constructor; cbn [with_req with_set t_off t_first t_last t_bundle t_desire t_req off lo hi cur mode sets] in *; try assumption.
    intros m q Q. rewrite at_put in Q by exact N. destruct (m =? n); [|apply ss_sets0; exact Q]. injection Q as <-. apply reset_rel. apply ss_sets0. exact E.
Qed.

(** What a successful select call puts in the set. *)
Lemma selecting_ok t n des nelm f st t' : selecting t n des nelm f = Some (st, t') -> 0 <= st ->
  exists r r', at_ (t_req (ready t)) n = Some r /\ f r = Some (st, r') /\ 1 <= nelm <= 50 /\ (r_use r <> 0 -> exdes_of des = r_exdes r) /\ t' = with_req (ready t) (put (t_req (ready t)) (Z.to_nat n) r').
Proof.
  unfold selecting. intros H ST. destruct (at_ _ n) as [r|] eqn:E; [|discriminate]. cbn [bind] in H.
  match type of H with (bind (if ?c then _ else _) _) = _ => destruct c eqn:C end.
  - cbn [bind] in H. injection H as <- _. lia.
  - apply orb_false_elim in C as [C C4]. apply orb_false_elim in C as [C C3]. apply orb_false_elim in C as [_ C2]. apply Z.ltb_ge in C2. unfold MAX_Nlist in C2.
    destruct (f r) as [[st0 r']|] eqn:F; [|discriminate]. cbn [bind] in H. injection H as <- <-. exists r, r'. split; [reflexivity|]. split; [exact F|]. split; [|split; [|reflexivity]].
    + destruct (Z.leb_spec nelm 0) as [Z0|Z0]; [|lia]. destruct (Z.eqb_spec nelm 1); [lia|discriminate].
    + intros U. destruct (Z.eqb_spec (r_use r) 0); [contradiction|]. cbn [negb andb] in C4. destruct (Z.eqb_spec (exdes_of des) (r_exdes r)); [assumption|discriminate].
Qed.
Lemma asked_iff a b c : negb (a =? b) && negb (a =? c) = false <-> a = c \/ a = b.
Proof. rewrite andb_false_iff, !negb_false_iff, !Z.eqb_eq. tauto. Qed.
Lemma suppl_match s q : s_ig4 s = -1 -> match_suppl s q = true <-> suppl_ok s q.
Proof.
  intros I4. unfold match_suppl, suppl_ok. rewrite negb_true_iff, !orb_false_iff, !asked_iff. unfold as_asked at 7. rewrite I4.
  change (s_ig1 s = -1 \/ s_ig1 s = q_ig1 q) with (as_asked (s_ig1 s) (q_ig1 q)). change (s_ig2 s = -1 \/ s_ig2 s = q_ig2 q) with (as_asked (s_ig2 s) (q_ig2 q)).
  change (s_ig3 s = -1 \/ s_ig3 s = q_ig3 q) with (as_asked (s_ig3 s) (q_ig3 q)). change (s_ni s = -1 \/ s_ni s = q_ni q) with (as_asked (s_ni s) (q_ni q)).
  change (s_nj s = -1 \/ s_nj s = q_nj q) with (as_asked (s_nj s) (q_nj q)). change (s_nk s = -1 \/ s_nk s = q_nk q) with (as_asked (s_nk s) (q_nk q)).
  generalize (as_asked (s_ig1 s) (q_ig1 q)) (as_asked (s_ig2 s) (q_ig2 q)) (as_asked (s_ig3 s) (q_ig3 q)) (as_asked (s_ni s) (q_ni q)) (as_asked (s_nj s) (q_nj q)) (as_asked (s_nk s) (q_nk q)) (s_grtyp s = 32 \/ s_grtyp s = q_grtyp q).
  intros A B C D E F G. split; [intros (((((((H1 & H2) & H3) & _) & H4) & H5) & H6) & H7)|intros (H1 & H2 & H3 & H4 & H5 & H6 & _ & H7)]; repeat split; auto.
Qed.
Lemma use_1 r x e : (r_use (with_use r x e) <> 0) <-> x <> 0. Proof. reflexivity. Qed.
Definition wants (des : Z) : bool := des =? 1.
Lemma exdes_wants des : exdes_of des = if wants des then DESIRE else EXCLURE. Proof. reflexivity. Qed.

Lemma select_set t n des c st t' : shaped (ready t) -> select t n des c = Some (st, t') -> 0 <= st -> fair (Select Current c) ->
  exists r r', at_ (t_req (ready t)) n = Some r /\ t' = with_req (ready t) (put (t_req (ready t)) (Z.to_nat n) r') /\
    shape r' /\ forall x, rel_set r x -> rel_set r' (with_criterion x (wants des) c).
Proof.
  intros [L F] H ST FAIR.
  assert (SHR : forall r, at_ (t_req (ready t)) n = Some r -> shape r) by (intros r E; rewrite Forall_forall in F; apply F; apply at_some in E as [_ E]; eapply nth_error_In; exact E).
  destruct c as [which arr nelm|arr nelm|l nelm|l nelm|l nelm|sp]; cbn [select] in H.
  - unfold select_ip in H. apply selecting_ok in H as (r & r' & E & FR & NE & _ & ->); [|exact ST]. specialize (SHR r E) as S. cbn [fair] in FAIR. destruct FAIR as [WH IL].
    exists r, r'. split; [exact E|]. split; [reflexivity|]. cbv zeta in FR. destruct (Z.eqb_spec which 1) as [->|W1]; [|destruct (Z.eqb_spec which 2) as [->|W2]; [|assert (which = 3) by lia; subst which]];
      (match type of FR with (bind ?f _) = _ => destruct f as [d|] eqn:FI end; [|discriminate]); cbn [bind] in FR; injection FR as _ <-;
      (eapply ips_ok in FI; [|destruct S; eassumption|exact NE|exact IL]); destruct FI as (FL & FU & FM).
    + split; [destruct S; constructor; assumption|]. intros x []. constructor; cbn; try assumption; [split; intros; [reflexivity|discriminate]|intros _; apply exdes_wants|split; assumption].
    + split; [destruct S; constructor; assumption|]. intros x []. constructor; cbn; try assumption; [split; intros; [reflexivity|discriminate]|intros _; apply exdes_wants|split; assumption].
    + split; [destruct S; constructor; assumption|]. intros x []. constructor; cbn; try assumption; [split; intros; [reflexivity|discriminate]|intros _; apply exdes_wants|split; assumption].
  - unfold select_date in H. apply selecting_ok in H as (r & r' & E & FR & NE & _ & ->); [|exact ST]. specialize (SHR r E) as S. cbn [fair] in FAIR.
    exists r, r'. split; [exact E|]. split; [reflexivity|]. cbv zeta in FR.
    assert (FD : exists d, fill_dates (r_dates r) arr nelm = Some (true, d) /\ r' = with_dates (with_use r USED (exdes_of des)) d).
    { unfold fill_dates. destruct (at_ arr 0) as [a0|]; [|discriminate]. cbn [bind] in *. destruct (_ =? 1); [injection FR as _ <-; eexists; split; reflexivity|].
      destruct (date_loop _ _ _ _ _ _ _) as [[[] d]|]; cbn [bind] in FR; [| |discriminate]; injection FR as <- <-; [eexists; split; reflexivity|lia]. }
    destruct FD as (d & FD & ->). eapply dates_ok in FD; [|destruct S; eassumption|exact NE|exact FAIR]. destruct FD as (FL & FU & FM).
    split; [destruct S; constructor; assumption|]. intros x []. constructor; cbn; try assumption; [split; intros; [reflexivity|discriminate]|intros _; apply exdes_wants|split; assumption].
  - unfold select_etiquette in H. apply selecting_ok in H as (r & r' & E & FR & NE & _ & ->); [|exact ST]. specialize (SHR r E) as S. cbn [fair] in FAIR.
    exists r, r'. split; [exact E|]. split; [reflexivity|]. destruct (fill_texts _ _ _ _) as [d|] eqn:FT; [|discriminate]. cbn [bind] in FR. injection FR as _ <-.
    apply (texts_ok 12) in FT; [|lia|destruct S; assumption|exact NE|exact FAIR]. destruct FT as (FS & FU & FM).
    split; [destruct S; constructor; assumption|]. intros x []. constructor; cbn; try assumption; [split; intros; [reflexivity|discriminate]|intros _; apply exdes_wants|split; [rewrite FU; discriminate|assumption]].
  - unfold select_nomvar in H. apply selecting_ok in H as (r & r' & E & FR & NE & _ & ->); [|exact ST]. specialize (SHR r E) as S. cbn [fair] in FAIR.
    exists r, r'. split; [exact E|]. split; [reflexivity|]. destruct (fill_texts _ _ _ _) as [d|] eqn:FT; [|discriminate]. cbn [bind] in FR. injection FR as _ <-.
    apply (texts_ok 4) in FT; [|lia|destruct S; assumption|exact NE|exact FAIR]. destruct FT as (FS & FU & FM).
    split; [destruct S; constructor; assumption|]. intros x []. constructor; cbn; try assumption; [split; intros; [reflexivity|discriminate]|intros _; apply exdes_wants|split; [rewrite FU; discriminate|assumption]].
  - unfold select_typvar in H. apply selecting_ok in H as (r & r' & E & FR & NE & _ & ->); [|exact ST]. specialize (SHR r E) as S. cbn [fair] in FAIR.
    exists r, r'. split; [exact E|]. split; [reflexivity|]. destruct (fill_texts _ _ _ _) as [d|] eqn:FT; [|discriminate]. cbn [bind] in FR. injection FR as _ <-.
    apply (texts_ok 2) in FT; [|lia|destruct S; assumption|exact NE|exact FAIR]. destruct FT as (FS & FU & FM).
    split; [destruct S; constructor; assumption|]. intros x []. constructor; cbn; try assumption; [split; intros; [reflexivity|discriminate]|intros _; apply exdes_wants|split; [rewrite FU; discriminate|assumption]].
  - unfold select_suppl in H. apply selecting_ok in H as (r & r' & E & FR & NE & _ & ->); [|exact ST]. specialize (SHR r E) as S. cbn [fair] in FAIR.
    exists r, r'. split; [exact E|]. split; [reflexivity|]. injection FR as _ <-.
    split; [destruct S; constructor; assumption|]. intros x []. constructor; cbn; try assumption; [split; intros; [reflexivity|discriminate]|intros _; apply exdes_wants|split; [discriminate|intros q; apply suppl_match; exact FAIR]].
Qed.

Lemma call_inv t s c st t' : inv t s -> fair c -> run_call t c = Some (st, t') -> 0 <= st -> inv t' (after s c).
Proof.
  intros I FAIR H ST. pose proof I as I0. destruct I as (SH & FB & SS). pose proof (ready_shaped t SH) as RS.
  assert (SEL : forall n des c, fair (Select Current c) -> select t n des c = Some (st, t') -> inv t' (with_set s n (with_criterion (sets s n) (wants des) c))).
  { intros n des c' FC HS. apply select_set in HS as (r & r' & E & -> & SR & G); [|exact RS|exact ST|exact FC].
    apply at_some in E as N. destruct N as [N _]. destruct RS as [L F]. split.
    - split; cbn [with_req t_req]; [rewrite put_length; exact L|apply put_forall; assumption].
    - split; [cbn [with_req t_fresh]; rewrite ready_fresh; discriminate|]. rewrite ready_id by apply ready_fresh. destruct SS. constructor; cbn [with_req with_set t_off t_first t_last t_bundle t_desire t_req off lo hi cur mode sets]; try assumption.
      intros m q Q. rewrite at_put in Q by exact N. destruct (Z.eqb_spec m n) as [->|NM]; [|apply ss_sets0; exact Q]. injection Q as <-. apply G, ss_sets0. exact E. }
  destruct c as [| | |a b| | |n k|g c]; cbn [run_call] in H.
  - injection H as _ <-. split; [apply init_shaped; exact SH|]. split; [discriminate|]. rewrite ready_id by reflexivity. cbn [after].
    assert (O : off s = t_off t) by (destruct SS; rewrite <- ss_off0; unfold ready; destruct (t_fresh t); reflexivity). rewrite O. apply init_same.
  - injection H as _ <-. split; [exact SH|]. split; [exact FB|]. unfold ready in *. cbn [t_fresh]. destruct (t_fresh t); destruct SS; constructor; cbn in *; try assumption; try reflexivity.
  - injection H as _ <-. split; [exact SH|]. split; [exact FB|]. unfold ready in *. cbn [t_fresh]. destruct (t_fresh t); destruct SS; constructor; cbn in *; try assumption; try reflexivity.
  - unfold select_groupset in H. destruct (_ || _) eqn:C; [injection H as <- _; lia|]. apply orb_false_elim in C as [C C3]. apply orb_false_elim in C as [C1 C2]. apply Z.ltb_ge in C1, C2, C3.
    injection H as _ <-. cbn [fair] in FAIR. split; [exact RS|]. split; [cbn [t_fresh]; rewrite ready_fresh; discriminate|]. rewrite ready_id by (cbn [t_fresh]; apply ready_fresh). destruct SS. unfold MAX_requetes in *. constructor; cbn; try assumption; try reflexivity. lia.
  - unfold filtre in H. injection H as _ <-. split; [exact RS|]. split; [cbn [t_fresh]; rewrite ready_fresh; discriminate|]. rewrite ready_id by (cbn [t_fresh]; apply ready_fresh). destruct SS. constructor; cbn; try assumption; try reflexivity. congruence.
  - unfold filtre in H. injection H as _ <-. split; [exact RS|]. split; [cbn [t_fresh]; rewrite ready_fresh; discriminate|]. rewrite ready_id by (cbn [t_fresh]; apply ready_fresh). destruct SS. constructor; cbn; try assumption; try reflexivity. congruence.
  - eapply forget_inv; [exact I0|exact H|exact ST].
  - destruct g as [|n des]; cbn [after].
    + assert (B : t_bundle t = cur s /\ t_desire t = if mode s then 1 else 0).
      { destruct (t_fresh t) eqn:FR.
        - exfalso. rewrite (FB eq_refl) in H. apply select_set in H as (r & r' & E & _); [|exact RS|exact ST|exact FAIR]. apply at_some in E as [E _]. lia.
        - rewrite ready_id in SS by exact FR. destruct SS. split; assumption. }
      destruct B as [B1 B2]. apply SEL in H; [|exact FAIR]. rewrite B1, B2 in H. replace (wants (if mode s then 1 else 0)) with (mode s) in H by (destruct (mode s); reflexivity). exact H.
    + apply (SEL n des c); [exact FAIR|exact H].
Qed.
Lemma runs_inv t cs t' : runs t cs t' -> forall s, inv t s -> Forall fair cs -> inv t' (fold_left after cs s).
Proof.
  induction 1 as [|t c st t' cs t'' H ST _ IH]; intros s I F; [exact I|]. inversion F as [|? ? F1 F2]. subst. cbn [fold_left]. apply IH; [|exact F2]. eapply call_inv; eassumption.
Qed.

(** * The verdict *)
Lemma crit_texts n d o s : rel_texts n d o -> plain_text s -> exists b, negb (c_use d =? 0) && negb (match_texts n d s) = negb b /\ (b = true <-> asks o (fun l => text_ok n l s)).
Proof.
  destruct o as [l|]; cbn [rel_texts asks].
  - intros [U M] P. exists (match_texts n d s). destruct (Z.eqb_spec (c_use d) 0); [contradiction|]. split; [reflexivity|apply M; exact P].
  - intros -> P. exists true. split; [reflexivity|tauto].
Qed.
Lemma crit_ip d o ip tr : rel_ip d o -> word ip -> exists b, negb (i_use d =? 0) && negb (match_ips d ip tr) = negb b /\ (b = true <-> asks o (fun l => ip_ok tr l ip)).
Proof.
  destruct o as [l|]; cbn [rel_ip asks].
  - intros [U M] P. exists (match_ips d ip tr). destruct (Z.eqb_spec (i_use d) 0); [contradiction|]. split; [reflexivity|apply M; exact P].
  - intros -> P. exists true. split; [reflexivity|tauto].
Qed.
Lemma crit_suppl r o q : rel_suppl r o -> exists b, negb (r_supp_use r =? 0) && negb (match_suppl (r_supp r) q) = negb b /\ (b = true <-> asks o (fun s => suppl_ok s q)).
Proof.
  destruct o as [l|]; cbn [rel_suppl asks].
  - intros [U M]. exists (match_suppl (r_supp r) q). destruct (Z.eqb_spec (r_supp_use r) 0); [contradiction|]. split; [reflexivity|apply M].
  - intros ->. exists true. split; [reflexivity|tauto].
Qed.
Lemma crit_dates d o date : rel_dates d o -> word date -> asks o (fun l => off_step l date) ->
  exists b, (if i_use d =? 0 then Some true else match_dates d date) = Some b /\ (b = true <-> asks o (fun l => date_ok l date)).
Proof.
  destruct o as [l|]; cbn [rel_dates asks].
  - intros [U M] P C. destruct (Z.eqb_spec (i_use d) 0); [contradiction|]. apply M; assumption.
  - intros -> P _. exists true. split; [reflexivity|tauto].
Qed.
Lemma match_set_ok noip r x q : rel_set r x -> on x = true -> a_record q -> asks (x_date x) (fun l => off_step l (q_date q)) ->
  exists b, match_set r q (negb (noip (q_nomvar q))) = Some b /\ (b = true <-> satisfies noip x q).
Proof.
  intros [] O (WD & W1 & W2 & W3 & T1 & T2 & T3) CL. unfold match_set, satisfies. cbv zeta. set (tr := negb (noip (q_nomvar q))).
  destruct (crit_suppl _ _ q rs_suppl0) as (b1 & -> & E1). destruct (crit_texts _ _ _ _ rs_etik0 T1) as (b2 & -> & E2). destruct (crit_texts _ _ _ _ rs_nom0 T2) as (b3 & -> & E3).
  destruct (crit_texts _ _ _ _ rs_typ0 T3) as (b4 & -> & E4). destruct (crit_dates _ _ _ rs_date0 WD CL) as (b5 & -> & E5).
  destruct (crit_ip _ _ _ tr rs_ip4 W1) as (b6 & -> & E6). destruct (crit_ip _ _ _ tr rs_ip5 W2) as (b7 & -> & E7). destruct (crit_ip _ _ _ tr rs_ip6 W3) as (b8 & -> & E8).
  exists (b1 && b2 && b3 && b4 && b5 && b6 && b7 && b8). cbn [bind].
  split; [destruct b1, b2, b3, b4, b5, b6, b7, b8; reflexivity|]. rewrite !andb_true_iff. tauto.
Qed.

Section Verdict.
  Context (noip : list Z -> bool) (l : list request) (x : Z -> sset) (q : params) (first last : Z).
  Hypothesis RANGE : 0 <= first /\ first <= last <= 49.
  Hypothesis LEN : length l = 50%nat.
  Hypothesis REL : forall n r, at_ l n = Some r -> rel_set r (x n).
  Hypothesis REC : a_record q.
  Hypothesis CLEAR : forall n, asks (x_date (x n)) (fun l => off_step l (q_date q)).
  Lemma at_in_range n : 0 <= n <= 49 -> exists r, at_ l n = Some r.
  Proof. intros H. unfold at_. destruct (Z.leb_spec 0 n); [|lia]. destruct (nth_error l (Z.to_nat n)) as [r|] eqn:E; [eauto|]. apply nth_error_None in E. lia. Qed.
  Lemma last_in_use_ok n k : first <= k <= 49 -> exists r m, last_in_use l n first k = Some r /\ at_ l m = Some r /\ first <= m <= k.
  Proof.
    revert k. induction n as [|n IH]; intros k K; cbn [last_in_use]; destruct (at_in_range k ltac:(lia)) as (r & E); rewrite E; cbn [bind].
    - exists r, k. repeat split; [exact E|lia|lia].
    - destruct ((first <? k) && (r_use r =? 0)) eqn:C; [|exists r, k; repeat split; [exact E|lia|lia]].
      apply andb_prop in C as [C _]. apply Z.ltb_lt in C. destruct (IH (k - 1) ltac:(lia)) as (r' & m & A & B & M). exists r', m. repeat split; [exact A|exact B|lia|lia].
  Qed.
  Definition wanted (n : Z) : Prop := on (x n) = true /\ want (x n) = true.
  Lemma desire_want r n : at_ l n = Some r -> r_use r <> 0 -> r_exdes r =? DESIRE = want (x n).
  Proof. intros E U. destruct (REL _ _ E). apply rs_on0 in U. rewrite (rs_want0 U). destruct (want (x n)); reflexivity. Qed.
  Lemma match_loop_ok n k nb : first <= k -> k + Z.of_nat n = last + 1 ->
    (nb = 0 /\ (forall m, first <= m < k -> ~ wanted m) \/ 0 < nb /\ exists m, first <= m < k /\ wanted m) ->
    (forall m, first <= m < k -> ~ satisfies noip (x m) q) ->
    exists v, match_loop l n first last k nb q (negb (noip (q_nomvar q))) = Some v /\
      ((exists m, first <= m <= last /\ satisfies noip (x m) q /\ (forall j, first <= j <= last -> j < m -> ~ satisfies noip (x j) q) /\ v = if want (x m) then m + 1 else 0) \/
       (forall m, first <= m <= last -> ~ satisfies noip (x m) q) /\ ((exists m, first <= m <= last /\ wanted m) /\ v = 0 \/ (forall m, first <= m <= last -> ~ wanted m) /\ v = 1)).
  Proof.
    revert k nb. induction n as [|n IH]; intros k nb K KN NB NS; cbn [match_loop].
    - destruct (last_in_use_ok (Z.to_nat (last - first)) last ltac:(lia)) as (r & m & -> & E & M). cbn [bind].
      destruct ((r_exdes r =? DESIRE) && negb (r_use r =? 0)) eqn:C.
      + exists 0. split; [reflexivity|]. right. split; [intros j J; apply NS; lia|]. left. split; [|reflexivity]. exists m. split; [exact M|].
        apply andb_prop in C as [C U]. apply negb_true_iff, Z.eqb_neq in U. rewrite (desire_want _ _ E U) in C. split; [apply (rs_on _ _ (REL _ _ E)); exact U|exact C].
      + destruct NB as [[-> NB]|[NB (j & J & W)]].
        * exists 1. split; [reflexivity|]. right. split; [intros j J; apply NS; lia|]. right. split; [intros j J; apply NB; lia|reflexivity].
        * destruct (Z.eqb_spec nb 0); [lia|]. exists 0. split; [reflexivity|]. right. split; [intros i I; apply NS; lia|]. left. split; [|reflexivity]. exists j. split; [lia|exact W].
    - destruct (at_in_range k ltac:(lia)) as (r & E). rewrite E. cbn [bind]. pose proof (REL _ _ E) as R. destruct (Z.eqb_spec (r_use r) 0) as [U|U].
      + assert (O : on (x k) <> true) by (intros O; apply (rs_on _ _ R) in O; contradiction). apply IH; try lia.
        * destruct NB as [[-> NB]|[NB (j & J & W)]]; [left; split; [reflexivity|]|right; split; [exact NB|exists j; split; [lia|exact W]]].
          intros m M W. destruct (Z.eq_dec m k) as [->|]; [destruct W; contradiction|]. apply (NB m); [lia|exact W].
        * intros m M S. destruct (Z.eq_dec m k) as [->|]; [destruct S; contradiction|]. apply (NS m); [lia|exact S].
      + assert (O : on (x k) = true) by (apply (rs_on _ _ R); exact U). rewrite (desire_want _ _ E U). cbv zeta.
        destruct (match_set_ok noip r (x k) q R O REC (CLEAR k)) as (b & -> & B). destruct b.
        * eexists. split; [reflexivity|]. left. exists k. split; [lia|]. split; [apply B; reflexivity|]. split; [intros j J1 J2; apply NS; lia|reflexivity].
        * apply IH; try lia.
          -- destruct (want (x k)) eqn:W.
             ++ right. split; [destruct NB as [[-> _]|[NB _]]; lia|]. exists k. split; [lia|split; assumption].
             ++ destruct NB as [[-> NB]|[NB (j & J & WJ)]]; [left; split; [reflexivity|]|right; split; [exact NB|exists j; split; [lia|exact WJ]]].
                intros m M WM. destruct (Z.eq_dec m k) as [->|]; [destruct WM; congruence|]. apply (NB m); [lia|exact WM].
          -- intros m M S. destruct (Z.eq_dec m k) as [->|]; [apply B in S; discriminate|]. apply (NS m); [lia|exact S].
  Qed.
End Verdict.

Lemma inv_verdict noip t s q : inv t s -> a_record q -> clear_of s q -> exists v, fstmatch_req noip t (Some q) = Some (v, if t_off t then t else ready t) /\ verdict noip s q v.
Proof.
  intros (SH & _ & SS) RE CL. apply ready_shaped in SH as [L _]. unfold fstmatch_req, verdict.
  assert (O : t_off t = off s) by (destruct SS; rewrite <- ss_off0; unfold ready; destruct (t_fresh t); reflexivity). rewrite <- O. destruct (t_off t); [exists 1; split; reflexivity|].
  unfold fstmatch_parm. rewrite ready_ready. cbv zeta. destruct SS. rewrite ss_lo0, ss_hi0.
  destruct (match_loop_ok noip (t_req (ready t)) (sets s) q (lo s) (hi s) ss_range0 L ss_sets0 RE CL (Z.to_nat (hi s - lo s + 1)) (lo s) 0) as (v & -> & V); try lia.
  - left. split; [reflexivity|lia].
  - exists v. split; [reflexivity|]. unfold in_group. destruct V as [V|[V [W|W]]]; [left; exact V|right; split; [exact V|left; exact W]|right; split; [exact V|right]].
    destruct W as [W ->]. split; [|reflexivity]. intros n N ON. destruct (want (sets s n)) eqn:E; [|reflexivity]. exfalso. apply (W n N). split; assumption.
Qed.

(** * The calls that are accepted *)
(** The count is from 1 to 50 and the array has that many values. For an
    interval of ip the code also reads a fourth value. *)
Definition complete (c : criterion) : Prop :=
  match c with
  | Ip _ arr nelm => 1 <= nelm <= 50 /\ nelm <= Z.of_nat (length arr) /\ (nth 1 arr 0 = -2 -> (4 <= length arr)%nat)
  | Date arr nelm => 1 <= nelm <= 50 /\ nelm <= Z.of_nat (length arr)
  | Etiket l nelm | Nomvar l nelm | Typvar l nelm => 1 <= nelm <= 50 /\ nelm <= Z.of_nat (length l)
  | Suppl _ => True
  end.
Lemma at_nth {A} (l : list A) i (d : A) : 0 <= i < Z.of_nat (length l) -> at_ l i = Some (nth (Z.to_nat i) l d).
Proof. intros H. unfold at_. destruct (Z.leb_spec 0 i); [|lia]. apply nth_error_nth'. lia. Qed.
Lemma fill_ip_total d arr nelm : 1 <= nelm <= 50 -> nelm <= Z.of_nat (length arr) -> (nth 1 arr 0 = -2 -> (4 <= length arr)%nat) -> ip_list (firstn (Z.to_nat nelm) arr) -> exists d', fill_ip d arr nelm = Some d'.
Proof.
  intros N L L4 IL. unfold fill_ip. rewrite (at_nth arr 0 0) by lia. cbn [bind]. change (Z.to_nat 0) with O. cbv zeta. destruct (nth 0 arr 0 =? -1) eqn:E; [eexists; reflexivity|].
  destruct (Z.eqb_spec nelm 1) as [->|N1]; [eexists; reflexivity|]. rewrite (at_nth arr 1 0) by lia. cbn [bind]. change (Z.to_nat 1) with 1%nat. unfold READLX_RANGE. destruct (Z.eqb_spec (nth 1 arr 0) (-2)) as [E2|E2].
  - specialize (L4 E2). rewrite (at_nth arr 3 0) by lia. cbn [bind]. destruct (_ && _) eqn:D.
    + apply andb_prop in D as [_ D]. apply Z.eqb_eq in D. rewrite (at_nth arr 2 0), (at_nth arr 4 0) by lia. eexists. reflexivity.
    + destruct (Z.ltb_spec (Z.of_nat (length arr)) nelm); [lia|]. eexists. reflexivity.
  - cbn [bind]. destruct (Z.ltb_spec (Z.of_nat (length arr)) nelm); [lia|]. eexists. reflexivity.
Qed.
Lemma date_loop_plain arr nelm range delta : forall fuel d i, 0 <= i -> i + Z.of_nat fuel <= Z.of_nat (length arr) ->
  Forall (fun v => v <> -2 /\ v <> -3) (firstn fuel (skipn (Z.to_nat i) arr)) -> exists d', date_loop fuel d arr nelm i range delta = Some (true, d').
Proof.
  induction fuel as [|fuel IH]; intros d i I L F; [eexists; reflexivity|]. cbn [date_loop]. rewrite (at_nth arr i 0) by lia. cbn [bind].
  assert (S : skipn (Z.to_nat i) arr = nth (Z.to_nat i) arr 0 :: skipn (Z.to_nat (i + 1)) arr).
  { replace (Z.to_nat (i + 1)) with (S (Z.to_nat i)) by lia. clear - I L. assert (Z.to_nat i < length arr)%nat by lia. revert H. generalize (Z.to_nat i). clear. induction arr as [|a arr IH]; intros n H; cbn in *; [lia|]. destruct n; [reflexivity|]. cbn. apply IH. lia. }
  rewrite S in F. cbn [firstn] in F. inversion F as [|? ? [F1 F2] F3]. subst. unfold READLX_DELTA, READLX_RANGE. destruct (Z.eqb_spec (nth (Z.to_nat i) arr 0) (-3)); [contradiction|].
  cbn [bind negb]. destruct (Z.eqb_spec (nth (Z.to_nat i) arr 0) (-2)); [contradiction|]. apply IH; [lia|lia|exact F3].
Qed.
Lemma delta_hours h : 1 <= h <= 596523 -> exists s, delta_seconds h = Some s.
Proof.
  intros H. unfold delta_seconds. assert (E : Z.land h 0x7F800000 = 0).
  { change 0x7F800000 with (255 * 2 ^ 23). apply Z.bits_inj'. intros n N. rewrite Z.land_spec, Z.bits_0. rewrite <- Z.shiftl_mul_pow2 by lia. destruct (Z.lt_ge_cases n 23).
    - rewrite Z.shiftl_spec_low by lia. apply andb_false_r.
    - rewrite <- (Z.mod_small h (2 ^ 23)) by lia. rewrite Z.mod_pow2_bits_high by lia. reflexivity. }
  rewrite E. cbn [Z.eqb negb]. destruct (Z.ltb_spec (h * 3600) (2 ^ 31)); [eauto|lia].
Qed.
Lemma fill_dates_total d arr nelm : 1 <= nelm <= 50 -> nelm <= Z.of_nat (length arr) -> date_list (firstn (Z.to_nat nelm) arr) -> exists d', fill_dates d arr nelm = Some (true, d').
Proof.
  intros N L DL. unfold fill_dates. rewrite (at_nth arr 0 0) by lia. cbn [bind]. change (Z.to_nat 0) with O. cbv zeta. destruct (Z.eqb_spec (nth 0 arr 0) (-1)) as [E|E]; [eexists; reflexivity|].
  destruct (Z.eqb_spec nelm 1) as [->|N1]; [eexists; reflexivity|].
  remember (firstn (Z.to_nat nelm) arr) as l eqn:EL. assert (LL : length l = Z.to_nat nelm) by (rewrite EL, firstn_length; lia).
  assert (A : forall i, 0 <= i < nelm -> at_ arr i = Some (nth (Z.to_nat i) l 0)).
  { intros i I. rewrite (at_nth arr i 0) by lia. f_equal. rewrite EL. rewrite <- (firstn_skipn (Z.to_nat nelm) arr) at 1. rewrite app_nth1; [reflexivity|]. rewrite firstn_length. lia. }
  Ltac step arr A i v := let H := fresh in assert (H : at_ arr i = Some v) by exact (A i ltac:(lia)); cbn in H; rewrite H; clear H; cbn.
  destruct DL as [l|l NE W F H|w S|v S|v w S1 S2|v w h S1 S2 H].
  - exfalso. apply E. specialize (A 0 ltac:(lia)). rewrite (at_nth arr 0 0) in A by lia. injection A as A. exact A.
  - apply date_loop_plain; [lia|lia|]. change (Z.to_nat 0) with O. cbn [skipn]. rewrite <- EL. exact F.
  - cbn [length] in LL. assert (nelm = 2) by lia. subst nelm. change (Z.to_nat 2) with 2%nat. cbn [date_loop]. unfold READLX_DELTA, READLX_RANGE. rewrite (A 0) by lia. cbn. step arr A 1 (w).
    unfold stamp in S. destruct (Z.eqb_spec w (-3)); [lia|]. cbn. destruct (Z.eqb_spec w (-2)); [lia|]. eexists. reflexivity.
  - cbn [length] in LL. assert (nelm = 2) by lia. subst nelm. change (Z.to_nat 2) with 2%nat. cbn [date_loop]. unfold READLX_DELTA, READLX_RANGE. rewrite (A 0) by lia. cbn. unfold stamp in S.
    destruct (Z.eqb_spec v (-3)); [lia|]. cbn. destruct (Z.eqb_spec v (-2)); [lia|]. step arr A 1 (-2). eexists. reflexivity.
  - cbn [length] in LL. assert (nelm = 3) by lia. subst nelm. change (Z.to_nat 3) with 3%nat. cbn [date_loop]. unfold READLX_DELTA, READLX_RANGE. rewrite (A 0) by lia. cbn. unfold stamp in *.
    destruct (Z.eqb_spec v (-3)); [lia|]. cbn. destruct (Z.eqb_spec v (-2)); [lia|]. step arr A 1 (-2). step arr A 2 (w).
    destruct (Z.eqb_spec w (-3)); [lia|]. cbn. destruct (Z.eqb_spec w (-2)); [lia|]. eexists. reflexivity.
  - cbn [length] in LL. assert (nelm = 5) by lia. subst nelm. change (Z.to_nat 5) with 5%nat. cbn [date_loop]. unfold READLX_DELTA, READLX_RANGE. rewrite (A 0) by lia. cbn. unfold stamp in *.
    destruct (Z.eqb_spec v (-3)); [lia|]. cbn. destruct (Z.eqb_spec v (-2)); [lia|]. step arr A 1 (-2). step arr A 2 (w).
    destruct (Z.eqb_spec w (-3)); [lia|]. cbn. destruct (Z.eqb_spec w (-2)); [lia|]. step arr A 3 (-3). step arr A 4 (h).
    destruct (delta_hours h H) as (s & ->). cbn. destruct (Z.eqb_spec h (-3)); [lia|]. cbn. destruct (Z.eqb_spec h (-2)); [lia|]. eexists. reflexivity.
Qed.

Lemma selecting_runs t n des nelm f r r' : at_ (t_req (ready t)) n = Some r -> 0 <= n < 50 -> 1 <= nelm <= 50 -> (r_use r <> 0 -> exdes_of des = r_exdes r) -> f r = Some (0, r') ->
  exists t', selecting t n des nelm f = Some (0, t').
Proof.
  intros E N NE U F. unfold selecting. rewrite E. cbn [bind]. unfold MAX_requetes, MAX_Nlist. destruct (Z.ltb_spec (50 - 1) n); [lia|]. destruct (Z.ltb_spec 50 nelm); [lia|]. destruct (Z.leb_spec nelm 0); [lia|]. cbn [orb andb].
  replace (negb (r_use r =? 0) && negb (exdes_of des =? r_exdes r)) with false.
  - rewrite F. eexists. reflexivity.
  - destruct (Z.eqb_spec (r_use r) 0); [reflexivity|]. rewrite U by assumption. rewrite Z.eqb_refl. reflexivity.
Qed.
Lemma select_accepts t s n des c : inv t s -> 0 <= n < 50 -> fair (Select (Given n des) c) -> complete c -> (on (sets s n) = true -> want (sets s n) = (des =? 1)) ->
  exists t', run_call t (Select (Given n des) c) = Some (0, t').
Proof.
  intros (SH & _ & SS) N FAIR CO W. apply ready_shaped in SH as [L _]. destruct SS.
  assert (E : exists r, at_ (t_req (ready t)) n = Some r).
  { unfold at_. destruct (Z.leb_spec 0 n); [|lia]. destruct (nth_error _ _) eqn:E; [eauto|]. apply nth_error_None in E. lia. }
  destruct E as (r & E). pose proof (ss_sets0 _ _ E) as R.
  assert (U : r_use r <> 0 -> exdes_of des = r_exdes r). { intros U. destruct R. apply rs_on0 in U. rewrite (rs_want0 U), (W U). reflexivity. }
  cbn [run_call]. destruct c as [which arr nelm|arr nelm|l nelm|l nelm|l nelm|sp]; cbn [select fair complete] in *.
  - destruct FAIR as [WH IL]. destruct CO as (C1 & C2 & C3). unfold select_ip.
    destruct (Z.eqb_spec which 1) as [->|W1]; [|destruct (Z.eqb_spec which 2) as [->|W2]; [|assert (which = 3) by lia; subst which]].
    + destruct (fill_ip_total (r_ip1 r) arr nelm C1 C2 C3 IL) as (d & D). eapply selecting_runs; try eassumption. cbn [Z.eqb Pos.eqb]. rewrite D. reflexivity.
    + destruct (fill_ip_total (r_ip2 r) arr nelm C1 C2 C3 IL) as (d & D). eapply selecting_runs; try eassumption. cbn [Z.eqb Pos.eqb]. rewrite D. reflexivity.
    + destruct (fill_ip_total (r_ip3 r) arr nelm C1 C2 C3 IL) as (d & D). eapply selecting_runs; try eassumption. cbn [Z.eqb Pos.eqb]. rewrite D. reflexivity.
  - destruct CO as (C1 & C2). unfold select_date. destruct (fill_dates_total (r_dates r) arr nelm C1 C2 FAIR) as (d & D). unfold fill_dates in D.
    eapply (selecting_runs t n des nelm _ r (with_dates (with_use r USED (exdes_of des)) d)); try assumption. destruct (at_ arr 0) as [a0|]; [|discriminate]. cbn [bind] in *. cbv zeta in *.
    destruct ((if a0 =? -1 then 1 else nelm) =? 1); [apply some_inj in D; injection D as <-; reflexivity|]. rewrite D. reflexivity.
  - destruct CO as (C1 & C2). unfold select_etiquette. eapply selecting_runs; try eassumption. unfold fill_texts. unfold text in C2. rewrite (proj2 (Z.ltb_ge _ _) C2). reflexivity.
  - destruct CO as (C1 & C2). unfold select_nomvar. eapply selecting_runs; try eassumption. unfold fill_texts. unfold text in C2. rewrite (proj2 (Z.ltb_ge _ _) C2). reflexivity.
  - destruct CO as (C1 & C2). unfold select_typvar. eapply selecting_runs; try eassumption. unfold fill_texts. unfold text in C2. rewrite (proj2 (Z.ltb_ge _ _) C2). reflexivity.
  - unfold select_suppl. eapply selecting_runs; try eassumption; [lia|reflexivity].
Qed.
