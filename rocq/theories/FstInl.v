(** c_fstinl. *)
From Coq Require Import ZArith List Lia Bool.
From Verif Require Import Bits Handles WaFile Xdf XdfLib XdfInv XdfDel XdfSearch XdfLoc XdfHist XdfSys XdfSys2 XdfSpec XdfThm Fst FstSpec FstSearch.
Import ListNotations.
Open Scope Z_scope.
Open Scope opt_scope.

Lemma handle_nonneg a b c : 0 <= make_rnd_handle a b c.
Proof.
  unfold make_rnd_handle. apply Z.lor_nonneg. split; [apply Z.land_nonneg; right; lia|]. apply Z.lor_nonneg. split; apply Z.shiftl_nonneg; apply Z.land_nonneg; right; lia.
Qed.
Lemma match_loop_end n filt w i f : forall pg no rec cu, match_loop n filt w i f pg no rec = Some (ERR_NOT_FOUND, cu) -> c_pg cu = None.
Proof.
  induction n as [|n IH]; intros pg no rec cu; [discriminate|]. cbn [match_loop]. destruct (get_page w pg) as [p|]; [|discriminate]. cbn [bind]. destruct (w_file w (fst pg)) as [g|]; [|discriminate]. cbn [bind].
  destruct (_ || _); [discriminate|]. destruct (scan _ _ _) as [r|].
  - intros H. exfalso. pose proof (handle_nonneg no r (Z.of_nat i)). assert (make_rnd_handle no r (Z.of_nat i) = ERR_NOT_FOUND) by congruence. unfold ERR_NOT_FOUND in *. lia.
  - destruct (next_page w pg) as [[q|]|]; [apply IH| |discriminate]. intros H. assert (cu = mkcur None (Some (pg, Z.to_nat (p_nent p))) no 0) as -> by congruence. reflexivity.
Qed.
Lemma next_match_end n filt w i w' : next_match n filt w i = Some (ERR_NOT_FOUND, w') -> exists f', w_file w' i = Some f' /\ c_pg (f_cur f') = None.
Proof.
  unfold next_match. intros X. destruct (w_file w i) as [f2|] eqn:F2; [|discriminate]. cbn [bind] in X.
  destruct (c_pg (f_cur f2)) as [pg|]; [|discriminate]. destruct (c_ent (f_cur f2)) as [[pg' k]|]; [|discriminate]. destruct (negb _) in X; [discriminate|]. destruct (negb _) in X; [discriminate|].
  destruct (match_loop _ _ _ _ _ _ _ _) as [[c cu2]|] eqn:ML; [|discriminate]. cbn [bind fst snd] in X. assert (c = ERR_NOT_FOUND) as -> by congruence.
  pose proof (match_loop_end _ _ _ _ _ _ _ _ _ ML) as E. exists (f_setcur f2 cu2).
  assert (w' = setf w i (Some (f_setcur f2 cu2))) as -> by congruence. split; [apply setf_same|exact E].
Qed.
Lemma loc_end n junk filt w iun i h primk nprim msk w' : file_index w iun = Some i -> xdfloc2 n junk filt w iun h primk nprim msk = Some (ERR_NOT_FOUND, w') ->
  exists f', w_file w' i = Some f' /\ c_pg (f_cur f') = None.
Proof.
  intros FX X. unfold xdfloc2 in X. rewrite FX in X. destruct (w_file w i) as [f|]; [|discriminate]. cbn [bind] in X. cbv zeta in X.
  repeat match type of X with
  | (if ?b then Some (ERR_BAD_HNDL, _) else _) = _ => destruct b; [discriminate|]
  | (if ?b then Some (ERR_NO_POS, _) else _) = _ => destruct b; [discriminate|]
  | bind ?x _ = _ => lazymatch x with
                     | context [ERR_BAD_PAGENO] => idtac
                     | _ => destruct x; [|discriminate]; cbn [bind] in X
                     end
  end.
  set (po := if h =? -1 then _ else _) in X.
  assert (PO : forall c, po = Some (Err c) -> c = ERR_BAD_PAGENO).
  { intros c. unfold po. destruct (h =? -1); [discriminate|]. destruct (negb _); [|discriminate]. destruct (_ <? _); [discriminate|]. destruct (_ =? _); [congruence|].
    destruct (link_walk _ _ _ _ _ _) as [[[pg|] no]|]; cbn [bind fst]; congruence. }
  destruct po as [[c|cu]|]; [specialize (PO c eq_refl); subst c; discriminate| |discriminate]. cbn [bind] in X.
  destruct (negb _) in X; [discriminate|]. apply next_match_end in X. exact X.
Qed.
(** Once nothing more was found, c_fstsui fails. *)
Lemma sui_after_end junk filt iun i s f : file_index (s_w s) iun = Some i -> w_file (s_w s) i = Some f -> c_pg (f_cur f) = None ->
  exists c s', fstsui junk filt iun s = Some (c, None, s') /\ c < 0.
Proof.
  intros FX F C. unfold fstsui, fst_next. cbn [step].
  assert (X : exists c w', xdfloc2 (S MAX_DIR_PAGES) junk filt (s_w s) iun (-1) [] 0 None = Some (c, w') /\ c < 0).
  { unfold xdfloc2. rewrite FX, F. cbn [bind]. cbv zeta. change (0 <? -1) with false. change (-1 <? -1) with false. change (-1 =? -1) with true. cbn [andb Z.eqb bind].
    destruct (match Xdf.c_ent (f_cur f) with None => true | Some _ => c_no (f_cur f) =? -1 end); [eexists _, _; split; [reflexivity|reflexivity]|].
    destruct (negb (f_vt f)); [eexists _, _; split; [reflexivity|reflexivity]|]. unfold next_match. rewrite setf_same. cbn [bind f_setcur f_cur c_pg]. rewrite C. eexists _, _. split; [reflexivity|reflexivity]. }
  destruct X as (c & w' & X & N). rewrite X. cbn [bind]. rewrite (proj2 (Z.ltb_lt _ _)) by exact N. eexists _, _. split; [reflexivity|exact N].
Qed.
Lemma call_end junk filt iun q i s h s' : file_index (s_w s) iun = Some i -> fst_call true junk filt iun q s h = Some (ERR_NOT_FOUND, None, s') ->
  exists f', w_file (s_w s') i = Some f' /\ c_pg (f_cur f') = None.
Proof.
  intros FX C. unfold fst_call in C. destruct (h =? 0).
  - unfold fstinf, fstinfx in C. rewrite FX in C. cbn [Z.ltb Z.compare andb] in C. unfold fst_loc in C. cbn [step] in C.
    destruct (xdfloc2 _ _ _ _ _ _ _ _ _) as [[c w]|] eqn:X in C; [|discriminate]. cbn [bind] in C. destruct (c <? 0); [|destruct (dims _ _); discriminate].
    assert (c = ERR_NOT_FOUND) as -> by congruence. assert (s' = mksys w (s_fs s)) as -> by congruence. eapply loc_end; eassumption.
  - unfold fstsui, fst_next in C. cbn [step] in C. destruct (xdfloc2 _ _ _ _ _ _ _ _ _) as [[c w]|] eqn:X in C; [|discriminate]. cbn [bind] in C. destruct (c <? 0); [|destruct (dims _ _); discriminate].
    assert (c = ERR_NOT_FOUND) as -> by congruence. assert (s' = mksys w (s_fs s)) as -> by congruence. eapply loc_end; eassumption.
Qed.

(** The two loops of c_fstinl, from the handle last found. *)
Lemma rest_lists junk filt iun q : forall l s h s2, lists (fst_call true junk filt iun q) s h l s2 -> 0 < h -> forall n, (length l < n)%nat -> inl_rest n junk filt iun s = Some (length l, s2).
Proof.
  intros l s h s2 L. induction L as [s h s' C|s h h' d s' l s'' C P L IH]; intros H n N; destruct n as [|n]; cbn [length] in *; try lia; cbn [inl_rest];
    unfold fst_call in C; rewrite (proj2 (Z.eqb_neq _ _)) in C by lia; rewrite C; cbn [bind].
  - reflexivity.
  - rewrite (proj2 (Z.ltb_ge _ _)) by lia. rewrite (IH P n) by lia. reflexivity.
Qed.
Lemma loop_lists junk filt iun q : forall l s h s2, lists (fst_call true junk filt iun q) s h l s2 -> 0 < h -> forall n rm, (S (length l) < n)%nat -> (1 <= rm)%nat ->
  exists s', inl_loop n junk filt iun h rm s = Some (firstn rm (h :: map fst l), s') /\
    if (rm <=? S (length l))%nat then exists h', 0 < h' /\ lists (fst_call true junk filt iun q) s' h' (skipn (rm - 1) l) s2 else s' = s2.
Proof.
  intros l s h s2 L. induction L as [s h s' C|s h h' d s' l s'' C P L IH]; intros H n rm N R; destruct n as [|n]; cbn [length] in *; try lia; cbn [inl_loop];
    rewrite (proj2 (Z.ltb_ge h 0)) by lia; destruct rm as [|[|rm]]; try lia; cbn [Nat.eqb].
  - exists s. split; [reflexivity|]. cbn [Nat.leb]. exists h. split; [exact H|]. cbn. apply lists_end. exact C.
  - pose proof C as C'. unfold fst_call in C'. rewrite (proj2 (Z.eqb_neq h 0)) in C' by lia. rewrite C'. cbn [bind]. destruct n as [|n]; [lia|]. cbn [inl_loop]. change (ERR_NOT_FOUND <? 0) with true. cbv iota. cbn [bind].
    exists s'. split; [cbn [map firstn]; reflexivity|reflexivity].
  - exists s. split; [reflexivity|]. cbn [Nat.leb]. exists h. split; [exact H|]. cbn [Nat.sub skipn]. eapply lists_more; eassumption.
  - pose proof C as C'. unfold fst_call in C'. rewrite (proj2 (Z.eqb_neq h 0)) in C' by lia. rewrite C'. cbn [bind].
    destruct (IH P n (S rm) ltac:(lia) ltac:(lia)) as (s3 & E & T). rewrite E. cbn [bind]. exists s3. split; [cbn [map fst]; reflexivity|].
    change (S (S rm) <=? S (S (length l)))%nat with (S rm <=? S (length l))%nat. destruct (S rm <=? S (length l))%nat; [|exact T]. destruct T as (h2 & P2 & L2). exists h2. split; [exact P2|].
    replace (S (S rm) - 1)%nat with (S (S rm - 1)) by lia. exact L2.
Qed.
Lemma lists_last junk filt q s i f : wf s -> w_file (s_w s) i = Some f -> forall l s1 h s2, lists (fst_call true junk filt (f_iun f) q) s1 h l s2 -> after_search s i f s1 ->
  exists sx hx, after_search s i f sx /\ fst_call true junk filt (f_iun f) q sx hx = Some (ERR_NOT_FOUND, None, s2).
Proof.
  intros W F l s1 h s2 L. induction L as [s1 h s' C|s1 h h' d s' l s'' C P L IH]; intros AS; [eauto|]. apply IH.
  unfold fst_call in C. destruct (h =? 0).
  - unfold fstinf, fstinfx in C. destruct (file_index _ _); [|discriminate]. cbn [Z.ltb Z.compare andb] in C. destruct (step _ s1) as [[c sx]|] eqn:ST; [|discriminate]. cbn [bind] in C.
    assert (sx = s') as -> by (destruct (c <? 0); [congruence|]; destruct (dims _ _); [|discriminate]; cbn [bind] in C; congruence). eapply loc_after; [reflexivity|exact F|exact W|exact AS|exact ST].
  - unfold fstsui in C. destruct (step _ s1) as [[c sx]|] eqn:ST; [|discriminate]. cbn [bind] in C.
    assert (sx = s') as -> by (destruct (c <? 0); [congruence|]; destruct (dims _ _); [|discriminate]; cbn [bind] in C; congruence). eapply loc_after; [reflexivity|exact F|exact W|exact AS|exact ST].
Qed.

Lemma fstinl_found n junk filt q s p i f nmax : wf s -> opened s p i f -> std_file f -> query_ok q -> (q_datev q = -1 \/ dates_coded f) ->
  (1 <= nmax)%nat -> (length (found filt q i f) < n)%nat ->
  exists s3, fstinl n junk filt (f_iun f) q nmax s =
    Some (if (nmax <? length (found filt q i f))%nat then - Z.of_nat (length (found filt q i f)) else 0,
          map (fun x => rec_handle i (fst x) (snd x)) (firstn nmax (found filt q i f)), s3).
Proof.
  intros W OP SF QO DC NM N. destruct (search_lists true junk filt q s p i f W OP SF QO DC) as (s2 & L & AS). pose proof OP as [P F].
  set (F0 := found filt q i f) in *. set (L0 := map _ F0) in L.
  assert (LL : length L0 = length F0) by apply map_length. assert (LM : map fst L0 = map (fun x => rec_handle i (fst x) (snd x)) F0) by (unfold L0; rewrite map_map; reflexivity).
  rewrite <- firstn_map, <- LM, <- LL. rewrite <- LL in N. clearbody L0. clear LM LL. clearbody F0.
  assert (END : exists c s', fstsui junk filt (f_iun f) s2 = Some (c, None, s') /\ c < 0).
  { destruct AS as (W2 & _ & _ & _ & g & G & LG). assert (GX : file_index (s_w s2) (f_iun f) = Some i) by (destruct LG as (_&_&_&_&_&_&<-&_&_); apply (file_index_of _ _ _ W2 G)).
    destruct (lists_last junk filt q s i f W F _ _ _ _ L (after_search_refl _ _ _ W F)) as (sx & hx & (WX & _ & _ & _ & gx & GX' & LX) & C).
    assert (FX : file_index (s_w sx) (f_iun f) = Some i) by (destruct LX as (_&_&_&_&_&_&<-&_&_); apply (file_index_of _ _ _ WX GX')).
    destruct (call_end _ _ _ _ _ _ _ _ FX C) as (f' & F' & CP). eapply sui_after_end; eassumption. }
  unfold fstinl. inversion L as [s0 h s' C E1 E2 E3|s0 h h' d s' l s'' C HP L' E1 E2 E3 E4]; subst; unfold fst_call in C; cbn [Z.eqb] in C; rewrite C; cbn [bind].
  - destruct n as [|n]; [cbn in N; lia|]. cbn [inl_loop]. change (ERR_NOT_FOUND <? 0) with true. cbv iota. cbn [bind inl_rest]. destruct END as (c & s' & ES & NG). rewrite ES. cbn [bind]. rewrite (proj2 (Z.ltb_lt _ _)) by exact NG. cbn [bind length Nat.add].
    exists s'. rewrite firstn_nil. rewrite (proj2 (Nat.ltb_ge nmax 0)) by lia. reflexivity.
  - cbn [length] in *. destruct (loop_lists _ _ _ _ _ _ _ _ L' HP n nmax N NM) as (s3 & E & T). rewrite E. cbn [bind].
    destruct (Nat.leb_spec nmax (S (length l))) as [C1|C1].
    + destruct T as (h2 & P2 & L2). rewrite (rest_lists _ _ _ _ _ _ _ _ L2 P2 n) by (rewrite skipn_length; lia). cbn [bind]. exists s2. rewrite firstn_length. cbn [length]. rewrite map_length, skipn_length.
      replace (Nat.min nmax (S (length l)) + (length l - (nmax - 1)))%nat with (S (length l)) by lia. reflexivity.
    + subst s3. destruct END as (c & s3 & ES & NG). destruct n as [|n]; [lia|]. cbn [inl_rest]. rewrite ES. cbn [bind]. rewrite (proj2 (Z.ltb_lt _ _)) by exact NG. cbn [bind].
      exists s3. rewrite firstn_length. cbn [length]. rewrite map_length. replace (Nat.min nmax (S (length l)) + 0)%nat with (S (length l)) by lia. reflexivity.
Qed.
