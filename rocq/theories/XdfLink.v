(** Linked files (c_xdflnk, c_xdfunl): searching and reading through the
    chain. *)
From Coq Require Import ZArith List Lia Bool.
From Verif Require Import Bits Handles HandlesFacts WaFile Xdf XdfLib XdfInv XdfDel XdfPut XdfPut2 XdfPut3 XdfPut4 XdfOpen XdfClose XdfClose2 XdfReopen XdfCreate XdfSearch XdfAbs XdfCkpt XdfLoc XdfHist XdfSys XdfSys2 XdfSpec XdfThm XdfEnum.
Import ListNotations.
Open Scope Z_scope.

(** Worlds obtained by searching, with any arguments. *)
Inductive searched : world -> world -> Prop :=
| searched_refl w : searched w w
| searched_step n junk filt w iun h primk nprim msk c w1 w2 :
    xdfloc2 n junk filt w iun h primk nprim msk = Some (c, w1) -> searched w1 w2 -> searched w w2.

(** A file but for its cursor and search target; and also its links. *)
Definition turned (f g : fte) : Prop := exists tg m v c, g = f_setcur (f_settgt f tg m v) c /\
  (kp_ok (f_kp f) -> length tg = length (f_target f) /\ length m = length (f_cmask f)).
Definition like (f g : fte) : Prop := exists t l, turned (f_setlink f t l) g.

Lemma turned_refl f : turned f f.
Proof. exists (f_target f), (f_cmask f), (f_vt f), (f_cur f). split; [destruct f; reflexivity|auto]. Qed.
Lemma turned_trans f g h : turned f g -> turned g h -> turned f h.
Proof.
  intros (a & b & c & d & -> & L) (a' & b' & c' & d' & -> & L'). exists a', b', c', d'. split; [reflexivity|].
  intros K. destruct (L K) as [A B]. destruct (L' K) as [A' B']. cbn [f_setcur f_settgt f_target f_cmask] in *. split; congruence.
Qed.
Lemma turned_cur f g c : turned f g -> turned f (f_setcur g c).
Proof. intros (t & m & v & c0 & -> & L). exists t, m, v, c. split; [reflexivity|exact L]. Qed.
Lemma like_refl f : like f f.
Proof. exists (f_tail f), (f_link f). replace (f_setlink f (f_tail f) (f_link f)) with f by (destruct f; reflexivity). apply turned_refl. Qed.
Lemma like_turned f g h : like f g -> turned g h -> like f h.
Proof. intros (t & l & T) T'. exists t, l. eapply turned_trans; eassumption. Qed.
Lemma like_link f g t l : like f g -> like f (f_setlink g t l).
Proof. intros (t0 & l0 & a & b & c & d & -> & L). exists t, l, a, b, c, d. split; [reflexivity|exact L]. Qed.

Lemma next_match_turned n filt w i f0 f c w' : w_file w i = Some f -> turned f0 f -> next_match n filt w i = Some (c, w') ->
  others w w' i /\ exists f', w_file w' i = Some f' /\ turned f0 f'.
Proof.
  intros F MV. unfold next_match. rewrite F. cbn [bind].
  assert (SAME : forall x : Z, Some (x, w) = Some (c, w') -> others w w' i /\ exists f', w_file w' i = Some f' /\ turned f0 f').
  { intros x H. injection H as _ <-. split; [apply others_refl|]. exists f. auto. }
  destruct (c_pg (f_cur f)) as [pg|]; [|apply SAME]. destruct (Xdf.c_ent (f_cur f)) as [[pg' k]|]; [|apply SAME].
  destruct (negb _); [discriminate|]. destruct (negb _); [apply SAME|].
  destruct (match_loop _ _ _ _ _ _ _ _) as [[a b]|]; [|discriminate]. cbn [bind fst snd]. intros H. injection H as _ <-.
  split; [apply others_setf, others_refl|]. rewrite setf_same. eexists. split; [reflexivity|]. apply turned_cur. exact MV.
Qed.

Lemma xdfloc2_turned n junk filt w iun handle primk nprim msk c w' : xdfloc2 n junk filt w iun handle primk nprim msk = Some (c, w') ->
  w' = w \/ exists i f f', w_file w i = Some f /\ others w w' i /\ w_file w' i = Some f' /\ turned f f'.
Proof.
  unfold xdfloc2. destruct (file_index w iun) as [i|]; [|intros H; left; congruence]. destruct (w_file w i) as [f|] eqn:F; [|discriminate].
  cbn [bind]. cbv zeta. fold (mask_of junk primk nprim msk). intros H. right. exists i, f.
  enough (others w w' i /\ exists f', w_file w' i = Some f' /\ turned f f') as (A & f' & B & C) by (exists f'; auto). revert H.
  assert (SAME : forall x : Z, Some (x, w) = Some (c, w') -> others w w' i /\ exists f', w_file w' i = Some f' /\ turned f f').
  { intros x H. injection H as _ <-. split; [apply others_refl|]. exists f. split; [exact F|]. apply turned_refl. }
  destruct (_ && _); [apply SAME|]. destruct (handle <? -1); [apply SAME|]. destruct (_ && _); [apply SAME|].
  match goal with |- bind ?t _ = _ -> _ => destruct t as [f1|] eqn:T; [|discriminate] end. cbn [bind].
  assert (Q1 : turned f f1).
  { destruct (nprim =? 0) eqn:N0; [injection T as <-; apply turned_refl|].
    destruct (kp_write _ _ _ _ _ _) as [[t m]|] eqn:K; [|discriminate]. cbn [bind fst snd] in T. injection T as <-. fold (new_mask f m).
    exists t, (new_mask f m), true, (f_cur f). split; [destruct f; reflexivity|]. intros [KP _]. destruct (KP _ _ _ _ _ _ _ K) as (A & B & _).
    split; [exact A|]. unfold new_mask. rewrite map_length, seq_length. exact B. }
  match goal with |- bind ?t _ = _ -> _ => destruct t as [[x|cu1]|] eqn:T2; [| |discriminate] end; cbn [bind].
  - intros H. injection H as _ <-. split; [apply others_setf, others_refl|]. rewrite setf_same. eexists. split; [reflexivity|]. apply turned_cur. exact Q1.
  - set (f2 := f_setcur f1 cu1). assert (Q2 : turned f f2) by (apply turned_cur; exact Q1).
    destruct (negb (f_vt f1)).
    + intros H. injection H as _ <-. split; [apply others_setf, others_refl|]. rewrite setf_same. exists f2. auto.
    + intros H. apply (next_match_turned _ _ _ _ f f2) in H; [|apply setf_same|apply Q2].
      destruct H as (O & f' & W & Q). split.
      * destruct O as [O1 O2]. split; [exact O1|]. intros j J. rewrite O2 by exact J. apply setf_other. exact J.
      * exists f'. split; [exact W|exact Q].
Qed.

(** Searching turns files, and does nothing else. *)
Definition all_turned (w w' : world) : Prop :=
  w_seq w' = w_seq w /\ forall j, match w_file w j, w_file w' j with None, None => True | Some f, Some g => turned f g | _, _ => False end.

Lemma searched_turned w w' : searched w w' -> all_turned w w'.
Proof.
  induction 1 as [w|n junk filt w iun h primk nprim msk c w1 w2 X H [IS IH]].
  - split; [reflexivity|]. intros j. destruct (w_file w j); [apply turned_refl|exact Logic.I].
  - apply xdfloc2_turned in X. destruct X as [-> |(i & f & f' & F & [O1 O2] & F' & T)]; [split; assumption|].
    split; [congruence|]. intros j. specialize (IH j). destruct (Nat.eq_dec j i) as [-> |N].
    + rewrite F. rewrite F' in IH. destruct (w_file w2 i); [eapply turned_trans; eassumption|contradiction].
    + rewrite O2 in IH by exact N. exact IH.
Qed.

(** * The chain made by c_xdflnk *)
Definition next_slot (js : list (nat * fte)) : option nat := match js with [] => None | (j, _) :: _ => Some j end.

Fixpoint chained (w : world) (js : list (nat * fte)) : Prop :=
  match js with
  | [] => True
  | (j, f) :: rest => (exists g, w_file w j = Some g /\ like f g /\ f_tail g = next_slot rest /\ (rest <> [] -> f_link g <> -1)) /\ chained w rest
  end.

Definition pgs (js : list (nat * fte)) : list ((nat * nat) * page) :=
  flat_map (fun jf => combine (map (pair (fst jf)) (seq 0 (length (f_pages (snd jf))))) (f_pages (snd jf))) js.

Definition own (jf : nat * fte) : list ((nat * nat) * page) := combine (map (pair (fst jf)) (seq 0 (length (f_pages (snd jf))))) (f_pages (snd jf)).
Lemma own_length jf : length (own jf) = length (f_pages (snd jf)).
Proof. unfold own. rewrite combine_length, map_length, seq_length. lia. Qed.
Lemma nth_combine {A B} (l : list A) (l' : list B) n a b : nth_error l n = Some a -> nth_error l' n = Some b -> nth_error (combine l l') n = Some (a, b).
Proof. revert l l'. induction n; intros [|x l] [|y l'] H H'; try discriminate; cbn in *; [congruence|]. apply IHn; assumption. Qed.
Lemma own_nth j f k p : nth_error (f_pages f) k = Some p -> nth_error (own (j, f)) k = Some ((j, k), p).
Proof.
  intros P. apply nth_combine; [|exact P]. assert (K : (k < length (f_pages f))%nat) by (apply nth_error_Some; congruence).
  cbn [fst snd]. rewrite nth_error_map, (nth_error_nth' _ 0%nat) by (rewrite seq_length; exact K). rewrite seq_nth by exact K. reflexivity.
Qed.
Lemma own_inv j f k pp p : nth_error (own (j, f)) k = Some (pp, p) -> pp = (j, k) /\ nth_error (f_pages f) k = Some p.
Proof.
  intros H. assert (K : (k < length (f_pages f))%nat). { pose proof (own_length (j, f)) as L. cbn [snd] in L. rewrite <- L. apply nth_error_Some. congruence. }
  destruct (nth_error (f_pages f) k) as [q|] eqn:Q; [|apply nth_error_None in Q; lia]. rewrite (own_nth j f k q Q) in H. split; congruence.
Qed.
Lemma pgs_cons jf js : pgs (jf :: js) = own jf ++ pgs js.
Proof. reflexivity. Qed.
Lemma pgs_pages js : map snd (pgs js) = concat (map (fun jf => f_pages (snd jf)) js).
Proof.
  induction js as [|jf js IH]; [reflexivity|]. rewrite pgs_cons, map_app, IH. cbn [map concat]. f_equal. unfold own.
  assert (X : forall (A B : Type) (l : list A) (l' : list B), length l = length l' -> map snd (combine l l') = l').
  { induction l as [|x l IHl]; intros [|y l'] E; try discriminate; [reflexivity|]. cbn. f_equal. apply IHl. cbn in E. lia. }
  apply X. rewrite map_length, seq_length. reflexivity.
Qed.

Lemma like_pages f g : like f g -> f_pages g = f_pages f.
Proof. intros (t & l & a & b & c & d & -> & _). reflexivity. Qed.

(** A page of the chain, and the next one. *)
Lemma pgs_step w js : chained w js -> Forall (fun jf => f_pages (snd jf) <> []) js -> forall k pp p, nth_error (pgs js) k = Some (pp, p) ->
  get_page w pp = Some p /\ next_page w pp = Some (option_map fst (nth_error (pgs js) (S k))) /\ exists f g, In (fst pp, f) js /\ w_file w (fst pp) = Some g /\ like f g /\ nth_error (f_pages f) (snd pp) = Some p.
Proof.
  induction js as [|(j, f) js IH]; intros C NE k pp p H; [destruct k; discriminate|].
  destruct C as [(g & G & LK & TL & _) C]. inversion NE as [|? ? NE1 NE2]; subst. cbn [snd] in NE1. rewrite pgs_cons in *.
  pose proof (own_length (j, f)) as OL. cbn [snd] in OL.
  destruct (Nat.lt_ge_cases k (length (f_pages f))) as [K|K].
  - rewrite nth_error_app1 in H by lia. apply own_inv in H. destruct H as [-> P].
    split. { unfold get_page. cbn [fst snd]. rewrite G. cbn [bind]. rewrite (like_pages _ _ LK). exact P. }
    split. 2: { exists f, g. cbn [fst snd]. split; [left; reflexivity|]. auto. }
    unfold next_page. cbn [fst snd]. rewrite G, (like_pages _ _ LK), TL. destruct (Nat.ltb_spec (S k) (length (f_pages f))) as [L|L].
    + rewrite nth_error_app1 by lia. destruct (nth_error (f_pages f) (S k)) as [q|] eqn:Q; [|apply nth_error_None in Q; lia].
      rewrite (own_nth j f (S k) q Q). reflexivity.
    + rewrite nth_error_app2 by lia. replace (S k - length (own (j, f)))%nat with 0%nat by lia.
      destruct js as [|(j2, f2) js]; [reflexivity|]. cbn [next_slot]. destruct C as [(g2 & G2 & LK2 & _) _]. rewrite G2.
      rewrite pgs_cons. inversion NE2 as [|? ? NE3 NE4]; subst. cbn [snd] in NE3. destruct (f_pages f2) as [|q ps] eqn:P2; [contradiction|].
      rewrite nth_error_app1 by (rewrite own_length; cbn [snd]; rewrite P2; cbn [length]; lia). rewrite (own_nth j2 f2 0 q) by (rewrite P2; reflexivity). reflexivity.
  - rewrite nth_error_app2 in H by lia. destruct (IH C NE2 _ _ _ H) as (A & B & f' & g' & D1 & D2). split; [exact A|]. split.
    + rewrite B. rewrite nth_error_app2 by lia. do 3 f_equal. lia.
    + exists f', g'. split; [right; exact D1|exact D2].
Qed.

Lemma walk_chain w js : chained w js -> Forall (fun jf => f_pages (snd jf) <> []) js -> forall m k pp p, nth_error (pgs js) k = Some (pp, p) -> (k + m < length (pgs js))%nat ->
  walk_pages w m pp = Some (option_map fst (nth_error (pgs js) (k + m))).
Proof.
  intros C NE. induction m; intros k pp p H L.
  - rewrite Nat.add_0_r, H. reflexivity.
  - cbn [walk_pages]. destruct (pgs_step _ _ C NE _ _ _ H) as (_ & -> & _). destruct (nth_error (pgs js) (S k)) as [(qq, q)|] eqn:Q.
    + cbn [option_map fst]. rewrite (IHm (S k) qq q Q) by lia. do 3 f_equal. lia.
    + apply nth_error_None in Q. lia.
Qed.

(** * Searching along the chain *)
Definition lhit (js : list (nat * fte)) (filt : Z -> bool) (i : nat) (f : fte) (s : nat * nat) : bool :=
  match nth_error (pgs js) (fst s) with
  | Some (_, p) => match nth_error (p_ents p) (snd s) with
                   | Some e => entry_matches filt i f (Z.of_nat (fst s)) (Z.of_nat (snd s)) e
                   | None => false
                   end
  | None => false
  end.
Definition lsizes (js : list (nat * fte)) : list nat := map (fun x => Z.to_nat (p_nent (snd x))) (pgs js).
Definition lfound (js : list (nat * fte)) (i : nat) (o : option (nat * nat)) (c : Z * cursor) : Prop :=
  match o with
  | Some (k, r) => exists pp p, nth_error (pgs js) k = Some (pp, p) /\ c = (hnd i (k, r), mkcur (Some pp) (Some (pp, S r)) (Z.of_nat k) (Z.of_nat (S r)))
  | None => fst c = ERR_NOT_FOUND
  end.

Lemma match_loop_chain filt w i f js n : chained w js -> Forall (fun jf => finv (snd jf) /\ f_plen (snd jf) = f_plen f) js ->
  forall k r pp p, nth_error (pgs js) k = Some (pp, p) -> (length (pgs js) - k <= n)%nat ->
  exists c, match_loop n filt w i f pp (Z.of_nat k) (Z.of_nat r) = Some c /\ lfound js i (find (lhit js filt i f) (after (lsizes js) k r)) c.
Proof.
  intros C FA. assert (NE : Forall (fun jf => f_pages (snd jf) <> []) js).
  { eapply Forall_impl; [|exact FA]. cbv beta. intros (j, g) ([G I] & _) E. pose proof (g_np _ _ G) as NP. cbn [snd] in *. rewrite E in NP. cbn in NP. lia. }
  induction n; intros k r pp p H N.
  - assert (k < length (pgs js))%nat by (apply nth_error_Some; congruence). lia.
  - destruct (pgs_step _ _ C NE _ _ _ H) as (GP & NX & f' & g & IN & G & LK & PP). cbn [match_loop]. rewrite GP. cbn [bind]. rewrite G. cbn [bind].
    rewrite Forall_forall in FA. destruct (FA _ IN) as [[GI II] PL]. cbn [snd] in *.
    assert (PG : f_plen g = f_plen f) by (destruct LK as (t & l & a & b & c & d & -> & _); exact PL). rewrite PG, Nat.eqb_refl. cbn [negb orb].
    pose proof (nent_bound _ _ _ GI PP) as NB. rewrite (proj2 (Z.ltb_ge _ _)) by (unfold EPP; lia).
    destruct (page_nth_ok _ _ _ _ GI PP) as (_ & _ & LE & _). unfold EPP in LE.
    rewrite Nat2Z.id, scan_page by lia.
    assert (NN : nth_error (lsizes js) k = Some (Z.to_nat (p_nent p))) by (unfold lsizes; rewrite nth_error_map, H; reflexivity).
    assert (SK : skipn k (lsizes js) = Z.to_nat (p_nent p) :: skipn (S k) (lsizes js)).
    { revert NN. generalize (lsizes js). clear. induction k; intros [|x ns] N; try discriminate; [injection N as ->; reflexivity|]. cbn [skipn]. apply IHk. exact N. }
    unfold after. rewrite SK. rewrite find_app, find_map.
    rewrite (find_ext (fun x => match nth_error (p_ents p) x with Some e => entry_matches filt i f (Z.of_nat k) (Z.of_nat x) e | None => false end)
                      (fun x => lhit js filt i f (k, x))).
    2: { intros x Hx. unfold lhit. cbn [fst snd]. rewrite H. reflexivity. }
    destruct (find (fun x => lhit js filt i f (k, x)) (seq r (Z.to_nat (p_nent p) - r))) as [x|] eqn:FD.
    + cbn [option_map lfound]. eexists. split; [reflexivity|]. exists pp, p. split; [exact H|]. unfold hnd. cbn [fst snd].
      replace (Z.of_nat x + 1) with (Z.of_nat (S x)) by lia. rewrite Nat2Z.id. reflexivity.
    + cbn [option_map]. rewrite NX. destruct (nth_error (pgs js) (S k)) as [(qq, q)|] eqn:Q; cbn [option_map fst].
      * destruct (IHn (S k) 0%nat qq q Q ltac:(lia)) as (c & M & L). exists c. split.
        { replace (Z.of_nat k + 1) with (Z.of_nat (S k)) by lia. exact M. }
        unfold after in L. destruct (skipn (S k) (lsizes js)) as [|m ns'] eqn:E2; [exact L|]. rewrite Nat.sub_0_r in L. exact L.
      * eexists. split; [reflexivity|]. replace (skipn (S k) (lsizes js)) with (@nil nat).
        2: { symmetry. apply skipn_all2. apply nth_error_None in Q. unfold lsizes. rewrite map_length. lia. }
        reflexivity.
Qed.

Lemma next_match_chain filt w i f js n k r pp p : chained w js -> Forall (fun jf => finv (snd jf) /\ f_plen (snd jf) = f_plen f) js ->
  w_file w i = Some f -> f_cur f = mkcur (Some pp) (Some (pp, r)) (Z.of_nat k) (Z.of_nat r) -> nth_error (pgs js) k = Some (pp, p) -> (length (pgs js) <= n)%nat ->
  exists c, next_match n filt w i = Some (fst c, setf w i (Some (f_setcur f (snd c)))) /\ lfound js i (find (lhit js filt i f) (after (lsizes js) k r)) c.
Proof.
  intros C FA F CU H N. destruct (match_loop_chain filt w i f js n C FA k r pp p H ltac:(lia)) as (c & M & L). exists c. split; [|exact L].
  unfold next_match. rewrite F. cbn [bind]. rewrite CU. cbn [c_pg Xdf.c_ent c_rec c_no]. rewrite !Nat.eqb_refl. cbn [andb negb]. rewrite Z.eqb_refl. cbn [negb].
  rewrite M. reflexivity.
Qed.
