(** Proofs about c_xdfuse. *)
From Coq Require Import ZArith List Lia Bool Sorted Permutation.
From Verif Require Import Bits Handles HandlesFacts WaFile Xdf XdfLib XdfInv XdfDel XdfPut XdfPut2 XdfPut3 XdfPut4 XdfOpen XdfClose XdfClose2 XdfReopen XdfCreate XdfSearch XdfAbs XdfCkpt XdfLoc XdfHist XdfSys XdfSys2 XdfSpec XdfThm XdfThm2 XdfEnum XdfSta XdfCrash XdfThm3 XdfUse XdfUseSpec.
Import ListNotations.
Open Scope Z_scope.

(** * The parts of a closed file, in order *)
Lemma range_0 d n : range d 0 n = firstn n d.
Proof. reflexivity. Qed.
Lemma range_2 d i n : (2 <= n)%nat -> range d i 2 = firstn 2 (range d i n).
Proof. intros N. unfold range. rewrite firstn_firstn. f_equal. lia. Qed.

(** The first two words of each part. *)
Lemma part_head f o x l : clean f -> ext (nents (f_pages f)) f o = Some (x, l) ->
  exists h0 h1, range (f_disk f) (Z.to_nat x) 2 = [h0; h1] /\ 2 * ((if h1 =? 0 then 1 else h1) - 1) = x /\ 2 * w_lng h0 = l /\
    match o with
    | ORec k r => exists e, ent f k r = Some e /\ x = 2 * (e_addr e - 1) /\ l = 2 * e_lng e /\ ((0 <? w_idtyp h0) && (w_idtyp h0 <? 127) = live e) /\ (live e = true -> w_idtyp h0 = e_idtyp e)
    | _ => w_idtyp h0 = 0
    end.
Proof.
  intros ([G I] & MD & HD & _ & _) X. pose proof (g_in _ _ G _ _ _ X) as IN. pose proof (g_small _ _ G) as SM. pose proof (g_tile _ _ G) as T.
  destruct o as [|k|k r].
  - cbn [ext] in X. injection X as <- <-. pose proof (g_hlen16 _ _ G) as H16. pose proof (t_hdr _ _ T) as [T1 T2].
    exists (hget (f_hdr f) 0), (hget (f_hdr f) 1). change (Z.to_nat 0) with 0%nat. rewrite (range_2 _ 0 (length (f_hdr f))) by lia. rewrite HD. unfold hget in *.
    split. { destruct (f_hdr f) as [|a [|b h]]; cbn [length] in H16; try lia. reflexivity. }
    rewrite T2. split; [reflexivity|]. split; [|exact T1]. rewrite (g_hlen _ _ G). reflexivity.
  - cbn [ext] in X. destruct (nth_error (f_pages f) k) as [p|] eqn:P; [|discriminate]. cbn [option_map] in X.
    assert (x = 2 * (p_addr p - 1)) as -> by congruence. assert (l = page_wlen (f_plen f)) as -> by congruence.
    pose proof (page_nth_ok _ _ _ _ G P) as PO. destruct (I k p P (fun x => x) (or_intror MD)) as [O _]. unfold on_disk in O.
    pose proof (tile_page _ _ _ _ T P) as PH. pose proof (g_plen _ _ G) as PL.
    exists (nth 0 (p_hd p) 0), (p_addr p). rewrite (range_2 _ _ (Z.to_nat (page_wlen (f_plen f)))) by (unfold page_wlen; lia). rewrite O.
    unfold phd in PH. split.
    { destruct PO as (L8 & _). unfold p_words, p_addr. destruct (p_hd p) as [|a [|b h]]; cbn [length] in L8; try lia. reflexivity. }
    rewrite PH, hd_lng, hd_idtyp. unfold page_wlen in *. change (EPP * f_plen f)%nat with (256 * f_plen f)%nat in *.
    split; [destruct (Z.eqb_spec (p_addr p) 0); lia|]. split; [|reflexivity]. rewrite Z.mod_small by lia. lia.
  - cbn [ext] in X. destruct (entry_at (nents (f_pages f)) (f_pages f) k r) as [e|] eqn:E; [|discriminate]. cbn [option_map] in X.
    assert (x = 2 * (e_addr e - 1)) as -> by congruence. assert (l = 2 * e_lng e) as -> by congruence.
    destruct (entry_at_page _ _ _ _ _ E) as (n & p & _ & P & _). destruct (t_rec _ _ T k r e p E P) as ((t & TB & R & TL & TD) & T254).
    pose proof (g_ents _ _ G _ _ _ E) as ([ID|[ID|ID]] & LB & AB).
    + assert (LV : live e = true) by (unfold live; apply andb_true_intro; split; apply Z.leb_le; lia).
      exists (mk_hd t (e_lng e)), (e_addr e). split; [exact R|]. split; [destruct (Z.eqb_spec (e_addr e) 0); lia|].
      rewrite hd_lng, hd_idtyp. rewrite (Z.mod_small (e_lng e)) by apply w_lng_range. split; [reflexivity|].
      exists e. split; [exact E|]. split; [reflexivity|]. split; [reflexivity|]. rewrite Z.mod_small by lia. rewrite (TL LV), LV.
      split; [apply andb_true_intro; split; apply Z.ltb_lt; lia|reflexivity].
    + destruct (T254 ID) as [_ M]. congruence.
    + assert (LV : live e = false) by (unfold live; rewrite ID; reflexivity).
      exists (mk_hd t (e_lng e)), (e_addr e). split; [exact R|]. split; [destruct (Z.eqb_spec (e_addr e) 0); lia|].
      rewrite hd_lng, hd_idtyp. rewrite (Z.mod_small (e_lng e)) by apply w_lng_range. split; [reflexivity|].
      exists e. split; [exact E|]. split; [reflexivity|]. split; [reflexivity|]. rewrite Z.mod_small by lia. rewrite (TD ID), LV. split; [reflexivity|discriminate].
Qed.

Inductive chain (f : fte) : Z -> list (nat * nat) -> Prop :=
| chain_end : chain f (fsize f) []
| chain_part x l o L : ext (nents (f_pages f)) f o = Some (x, l) -> chain f (x + l) L ->
    chain f x (match o with ORec k r => match ent f k r with Some e => if live e then (k, r) :: L else L | None => L end | _ => L end).

Lemma next_part f x l o : finv f -> ext (nents (f_pages f)) f o = Some (x, l) -> x + l < fsize f ->
  exists o' l', ext (nents (f_pages f)) f o' = Some (x + l, l').
Proof.
  intros [G I] X LT. pose proof (g_in _ _ G _ _ _ X) as IN.
  destruct (t_cover _ _ (g_tile _ _ G) (x + l)) as (o' & s & l' & X' & C); [unfold fsize in LT; lia|].
  exists o', l'. rewrite X'. f_equal. f_equal.
  assert (N : o <> o') by (intros <-; rewrite X in X'; injection X' as <- <-; lia).
  pose proof (g_apart _ _ G _ _ _ _ X X' N) as A. unfold apart in A. cbn [fst snd] in A. lia.
Qed.

Lemma chain_from f : finv f -> forall n x l o, fsize f - x <= Z.of_nat n -> ext (nents (f_pages f)) f o = Some (x, l) -> exists L, chain f x L.
Proof.
  intros FI. induction n; intros x l o N X; pose proof (g_in _ _ (proj1 FI) _ _ _ X) as IN; fold (fsize f) in IN; [lia|].
  destruct (Z.eq_dec (x + l) (fsize f)) as [E|E].
  - eexists. eapply chain_part; [exact X|]. rewrite E. apply chain_end.
  - destruct (next_part f x l o FI X ltac:(lia)) as (o' & l' & X'). destruct (IHn (x + l) l' o' ltac:(lia) X') as (L & C).
    eexists. eapply chain_part; [exact X|exact C].
Qed.

Lemma chain_all f : finv f -> exists L, chain f 0 L.
Proof. intros FI. apply (chain_from f FI (Z.to_nat (fsize f)) 0 (Z.of_nat (length (f_hdr f))) OHdr); [lia|reflexivity]. Qed.

Definition start_of (f : fte) (x : nat * nat) : Z := match ent f (fst x) (snd x) with Some e => 2 * (e_addr e - 1) | None => 0 end.
Lemma chain_in f x L : finv f -> chain f x L -> forall k r, In (k, r) L <-> exists e, ent f k r = Some e /\ live e = true /\ x <= 2 * (e_addr e - 1).
Proof.
  intros FI C. pose proof FI as [G I]. induction C as [|x l o L X C IH]; intros k r.
  - split; [intros []|]. intros (e & E & _ & B). pose proof (rec_ext_bound _ _ _ _ _ G E). lia.
  - pose proof (g_in _ _ G _ _ _ X) as IN.
    assert (SP : (exists e, ent f k r = Some e /\ live e = true /\ x <= 2 * (e_addr e - 1)) <->
                 (o = ORec k r /\ exists e, ent f k r = Some e /\ live e = true) \/ (exists e, ent f k r = Some e /\ live e = true /\ x + l <= 2 * (e_addr e - 1))).
    { split.
      - intros (e & E & LV & B). assert (XE : ext (nents (f_pages f)) f (ORec k r) = Some (2 * (e_addr e - 1), 2 * e_lng e)) by (cbn [ext]; unfold ent in E; rewrite E; reflexivity).
        assert (D : o = ORec k r \/ o <> ORec k r) by (destruct o as [| |a b]; [right; discriminate|right; discriminate|destruct (Nat.eq_dec a k), (Nat.eq_dec b r); subst; auto; right; congruence]).
        destruct D as [D|D]; [left; eauto|right]. exists e. split; [exact E|]. split; [exact LV|].
        pose proof (g_apart _ _ G _ _ _ _ X XE D) as A. unfold apart in A. cbn [fst snd] in A. pose proof (rec_ext_bound _ _ _ _ _ G E). lia.
      - intros [(-> & e & E & LV)|(e & E & LV & B)]; exists e; split; try assumption; split; try assumption; [|lia].
        cbn [ext] in X. unfold ent in E. rewrite E in X. cbn [option_map] in X. assert (x = 2 * (e_addr e - 1)) by congruence. lia. }
    rewrite SP, <- IH. destruct o as [|j|a b].
    + split; [auto|]. intros [[D _]|]; [discriminate|assumption].
    + split; [auto|]. intros [[D _]|]; [discriminate|assumption].
    + destruct (ent f a b) as [e|] eqn:E.
      * destruct (live e) eqn:LV; cbn [In].
        -- split; [intros [D|D]; [injection D as <- <-; left; eauto|auto]|]. intros [[D _]|D]; [left; congruence|auto].
        -- split; [auto|]. intros [[D (e' & E' & LV')]|D]; [|exact D]. injection D as <- <-. congruence.
      * split; [auto|]. intros [[D (e' & E' & LV')]|D]; [|exact D]. injection D as <- <-. congruence.
Qed.

Lemma chain_sorted f x L : finv f -> chain f x L -> StronglySorted (fun a b => start_of f a < start_of f b) L.
Proof.
  intros FI C. pose proof FI as [G I]. induction C as [|x l o L X C IH]; [constructor|].
  destruct o as [|j|a b]; try exact IH. destruct (ent f a b) as [e|] eqn:E; [|exact IH]. destruct (live e); [|exact IH].
  constructor; [exact IH|]. apply Forall_forall. intros [k r] Hin. apply (chain_in f _ _ FI C) in Hin. destruct Hin as (e' & E' & _ & B).
  unfold start_of. cbn [fst snd]. rewrite E, E'. cbn [ext] in X. unfold ent in E. rewrite E in X. cbn [option_map] in X. assert (x = 2 * (e_addr e - 1)) by congruence. assert (l = 2 * e_lng e) by congruence.
  pose proof (rec_ext_bound _ _ _ _ _ G E). lia.
Qed.

Lemma chain_order f L A : finv f -> (forall k r, A k r = abs f k r) -> chain f 0 L -> in_file_order A L.
Proof.
  intros FI AB C. split.
  - intros k r. rewrite (chain_in f 0 L FI C). rewrite AB. split.
    + intros (e & E & LV & _). exists (e, rec_data f e). apply abs_live. auto.
    + intros ([e ws] & X). apply abs_live in X. destruct X as (E & LV & _). exists e. split; [exact E|]. split; [exact LV|].
      pose proof (rec_ext_bound _ _ _ _ _ (proj1 FI) E). lia.
  - pose proof (chain_sorted f 0 L FI C) as S. clear C. induction S as [|x L S IH F]; constructor; [exact IH|].
    eapply Forall_impl; [|exact F]. intros y H e ws e' ws'. rewrite !AB. intros X Y. apply abs_live in X, Y. unfold start_of in H.
    destruct X as (X & _). destruct Y as (Y & _). rewrite X, Y in H. lia.
Qed.

Lemma chain_n_live f L : finv f -> chain f 0 L -> Z.of_nat (length L) = n_live f.
Proof.
  intros FI C. unfold n_live. f_equal. apply Permutation_length. apply NoDup_Permutation.
  - pose proof (chain_sorted f 0 L FI C) as S. clear C. induction S as [|x L S IH F]; constructor; [|exact IH]. intros IN. rewrite Forall_forall in F. specialize (F x IN). lia.
  - apply NoDup_filter. apply positions_nodup.
  - intros [k r]. rewrite (chain_in f 0 L FI C), <- (abs_live_iff f k r FI). split.
    + intros (e & E & LV & _). exists (e, rec_data f e). apply abs_live. auto.
    + intros ([e ws] & X). apply abs_live in X. destruct X as (E & LV & _). exists e. split; [exact E|]. split; [exact LV|].
      pose proof (rec_ext_bound _ _ _ _ _ (proj1 FI) E). lia.
Qed.

(** * One record added *)
Lemma std_fits f data : finv f -> f_kp f = std_kp -> (2 * f_plen f <= length data)%nat -> kp_fits f data.
Proof.
  intros FI KP LD hd d e HK LDd LE. pose proof FI as [G I]. pose proof (g_plen _ _ G) as PL.
  assert (N : std_nw hd = nkeys f).
  { rewrite <- (std_nw_plen f FI). unfold std_nw, h_lprm. destruct HK as [_ K]. rewrite K; [reflexivity|]. unfold hkept, H_PRM. lia. }
  rewrite KP. cbn [kp_read kp_write std_kp]. unfold std_read, std_write. rewrite N. unfold nkeys, MAX_PRIMARY_LNG in *.
  rewrite !(proj2 (Nat.leb_le _ _)) by lia. cbn [andb].
  set (ks := firstn (2 * (f_plen f - 1)) (skipn 2 d)). assert (LK : length ks = (2 * (f_plen f - 1))%nat) by (unfold ks; rewrite firstn_length, skipn_length; lia).
  exists ks. rewrite app_length, !repeat_length, LK. rewrite !(proj2 (Nat.leb_le _ _)) by lia. cbn [andb]. eexists. split; reflexivity.
Qed.

Lemma put_record_code junk w3 i rw te wa nw buf c w' b' : put_record junk w3 i rw te wa nw buf = Some (c, w', b') -> c = 0.
Proof.
  unfold put_record. destruct (w_file w3 i) as [f|]; cbn [bind]; [|discriminate]. destruct (nth_error (b_data buf) 0) as [b0|]; cbn [bind]; [|discriminate]. cbv zeta.
  destruct (_ || _); [discriminate|].
  destruct (f_write _ _ _ _) as [f1|]; cbn [bind]; [|discriminate]. destruct (kp_read _ _ _) as [ks|]; cbn [bind]; [|discriminate].
  destruct (Xdf.c_ent (f_cur f)) as [[pp r]|]; cbn [bind]; [|discriminate]. destruct (get_page _ _) as [p|]; cbn [bind]; [|discriminate].
  destruct (nth_error (p_ents p) r) as [e|]; cbn [bind]; [|discriminate]. destruct (kp_write _ _ _ _ _ _) as [em|]; cbn [bind]; [|discriminate].
  match goal with |- bind ?x _ = _ -> _ => destruct x as [f2|] end; cbn [bind]; [|discriminate]. intros H. assert (Q : Some 0 = Some c) by (injection H as <- _ _; reflexivity). congruence.
Qed.

Lemma put_slot_err junk i f x : put_slot junk i f = Some (inl x) -> (MAX_DIR_PAGES <= length (f_pages f))%nat.
Proof.
  unfold put_slot. destruct (nth_error (f_pages f) (length (f_pages f) - 1)) as [q|]; cbn [bind]; [|discriminate].
  destruct (Z.of_nat EPP <=? p_nent q).
  2: discriminate.
  unfold add_dir_page. cbn [f_setpages f_pages]. rewrite upd_length.
  destruct (Nat.leb_spec MAX_DIR_PAGES (length (f_pages f))) as [L|L]; [auto|]. cbv zeta.
  match goal with |- context [f_write ?a ?b ?c ?d] => destruct (f_write a b c d) as [g|] end; cbn [bind]; [|discriminate].
  match goal with |- context [bind (nth_error ?a ?b) _] => destruct (nth_error a b) end; cbn [bind]; discriminate.
Qed.

Lemma put_code junk w iun buf i f c w' b' : file_index w iun = Some i -> w_file w i = Some f -> writable f -> b_nbits buf mod 64 = 0 ->
  file_index w (b_iun buf) <> None -> xdfput junk w iun 0 buf = Some (c, w', b') -> c <> 0 -> (MAX_DIR_PAGES <= length (f_pages f))%nat.
Proof.
  intros FX F [WR RO] EV NB. unfold xdfput. destruct (file_index w (b_iun buf)) as [ib|]; [|congruence]. rewrite FX, EV. cbn [Z.eqb negb]. rewrite F. cbn [bind].
  rewrite (proj2 (Z.eqb_neq _ _) WR), RO. cbn [orb andb]. change (0 <? 0) with false. cbv iota.
  destruct (put_slot junk i f) as [[x|f2]|] eqn:PS; [intros _ _; eapply put_slot_err; exact PS| |discriminate].
  change (0 <? 0) with false. cbv iota. intros H C. exfalso. apply C. eapply put_record_code. exact H.
Qed.

(** ** Positions in directory order *)
Definition lex (x y : nat * nat) : Prop := (fst x < fst y)%nat \/ (fst x = fst y /\ (snd x < snd y)%nat).

Lemma sorted_app {A} (R : A -> A -> Prop) l m : StronglySorted R l -> StronglySorted R m -> (forall x y, In x l -> In y m -> R x y) -> StronglySorted R (l ++ m).
Proof.
  intros L M X. induction L as [|a l L IH F]; [exact M|]. cbn [app]. constructor.
  - apply IH. intros. apply X; [right|]; assumption.
  - apply Forall_app. split; [exact F|]. apply Forall_forall. intros y Y. apply X; [left; reflexivity|exact Y].
Qed.
Lemma slots_from_sorted ns : forall k, StronglySorted lex (slots_from k ns).
Proof.
  induction ns as [|n ns IH]; intros k; cbn [slots_from]; [constructor|]. apply sorted_app; [|apply IH|].
  - generalize 0%nat as a. induction n as [|n IHn]; intros a; cbn [seq map]; constructor; [apply IHn|].
    apply Forall_forall. intros y Y. apply in_map_iff in Y. destruct Y as (r & <- & R). apply in_seq in R. right. cbn [fst snd]. lia.
  - intros x [j r] X Y. apply in_map_iff in X. destruct X as (a & <- & _). apply in_slots_from in Y. destruct Y as (m & L & _). left. cbn [fst]. lia.
Qed.
Lemma sorted_unique {A} (R : A -> A -> Prop) : (forall x y, R x y -> R y x -> False) -> forall l m,
  StronglySorted R l -> StronglySorted R m -> (forall x, In x l <-> In x m) -> l = m.
Proof.
  intros AS. induction l as [|a l IH]; intros m L M E.
  - destruct m as [|b m]; [reflexivity|]. destruct (proj2 (E b) (or_introl eq_refl)).
  - destruct m as [|b m]; [destruct (proj1 (E a) (or_introl eq_refl))|]. inversion L as [|? ? L1 LF]; subst. inversion M as [|? ? M1 MF]; subst.
    rewrite Forall_forall in LF, MF. assert (IR : forall x, R x x -> False) by (intros x X; apply (AS x x X X)).
    assert (a = b).
    { destruct (proj1 (E a) (or_introl eq_refl)) as [D|D]; [auto|]. destruct (proj2 (E b) (or_introl eq_refl)) as [D'|D']; [auto|].
      exfalso. apply (AS a b); auto. }
    subst b. f_equal. apply IH; auto. intros x. split; intros X.
    + destruct (proj1 (E x) (or_intror X)) as [D|D]; [|exact D]. subst x. exfalso. apply (IR a); auto.
    + destruct (proj2 (E x) (or_intror X)) as [D|D]; [|exact D]. subst x. exfalso. apply (IR a); auto.
Qed.

Lemma positions_some f k r : finv f -> In (k, r) (positions (page_sizes f)) <-> ent f k r <> None.
Proof.
  intros FI. rewrite (positions_ent f k r FI). split; [congruence|]. intros H. destruct (ent f k r) as [e|] eqn:E; [|congruence]. f_equal.
  apply entry_at_page in E. destruct E as (n & p & N & P & R & Q). unfold entry_words. rewrite P. symmetry. apply nth_error_nth. exact Q.
Qed.
Lemma positions_sorted f : StronglySorted lex (positions (page_sizes f)).
Proof. rewrite <- slots_positions. apply slots_from_sorted. Qed.

Lemma positions_snoc f f' k r : finv f -> finv f' -> ent f k r = None -> ent f' k r <> None -> (forall j s, (j, s) <> (k, r) -> ent f' j s = ent f j s) ->
  k = (length (f_pages f') - 1)%nat -> nth_error (nents (f_pages f')) k = Some (S r) -> positions (page_sizes f') = positions (page_sizes f) ++ [(k, r)].
Proof.
  intros FI FI' N S O K NR. apply (sorted_unique lex).
  - intros x y [A|[A B]] [C|[C D]]; lia.
  - apply positions_sorted.
  - apply sorted_app; [apply positions_sorted|constructor; [constructor|constructor]|]. intros [j s] y J [<-|[]].
    apply (positions_some f j s FI) in J. assert (D : (j, s) <> (k, r)) by congruence. rewrite <- (O j s D) in J.
    destruct (ent f' j s) as [e|] eqn:E; [|congruence]. apply entry_at_page in E. destruct E as (n & p & NN & P & R & _).
    assert (j < length (f_pages f'))%nat by (apply nth_error_Some; congruence). unfold lex. cbn [fst snd].
    destruct (Nat.eq_dec j k) as [->|]; [|left; lia]. right. split; [reflexivity|]. rewrite NR in NN. injection NN as <-. assert (s <> r) by congruence. lia.
  - intros [j s]. rewrite in_app_iff, (positions_some f' j s FI'), (positions_some f j s FI). cbn [In].
    assert (DD : (j, s) = (k, r) \/ (j, s) <> (k, r)) by (destruct (Nat.eq_dec j k), (Nat.eq_dec s r); subst; auto; right; congruence).
    destruct DD as [D|D].
    + injection D as -> ->. tauto.
    + rewrite (O j s D). split; [auto|]. intros [H|[H|[]]]; [exact H|congruence].
Qed.

(** ** The effect of one put *)
Record added (g g1 : fte) (ws : list Z) : Prop := {
  ad_stat : stat g g1;
  ad_np : (length (f_pages g) <= length (f_pages g1))%nat;
  ad_size : fsize g <= fsize g1 <= fsize g + page_wlen (f_plen g) + Z.of_nat (length ws);
  ad_eff : (MAX_DIR_PAGES <= length (f_pages g1))%nat \/
    exists k r e' ws', positions (page_sizes g1) = positions (page_sizes g) ++ [(k, r)] /\ abs g1 k r = Some (Some (e', ws')) /\ same_record ws ws' /\
      (f_kp g = std_kp -> (2 * f_plen g <= length ws)%nat -> e' = firstn (2 * f_plen g) ws') /\
      forall j s, In (j, s) (positions (page_sizes g)) -> abs g1 j s = abs g j s
}.

Lemma page_wlen_pos n : 0 <= page_wlen n.
Proof. unfold page_wlen. lia. Qed.

Lemma use_put s junk dst j g buf ws tail : wf s -> file_index (s_w s) dst = Some j -> w_file (s_w s) j = Some g -> writable g ->
  b_data buf = ws ++ tail -> b_nbits buf = 32 * Z.of_nat (length ws) -> Z.of_nat (length ws) mod 2 = 0 -> buf_ok buf -> room g (Z.of_nat (length ws)) ->
  w_lng (nth 0 ws 0) = Z.of_nat (length ws) / 2 -> file_index (s_w s) (b_iun buf) <> None ->
  match step (OpPut junk dst 0 buf) s with
  | None => f_kp g = std_kp -> (2 * f_plen g <= length (b_data buf))%nat -> False
  | Some (c, s1) => wf s1 /\ ok_op s (OpPut junk dst 0 buf) /\ s_fs s1 = s_fs s /\ (forall i, i <> j -> w_file (s_w s1) i = w_file (s_w s) i) /\
      exists g1, w_file (s_w s1) j = Some g1 /\ added g g1 ws
  end.
Proof.
  intros W FX F WB BD NB EV BO RM WL IU.
  assert (NW : b_nbits buf / 32 = Z.of_nat (length ws)) by (rewrite NB, Z.mul_comm; apply Z.div_mul; lia).
  assert (OK : ok_op s (OpPut junk dst 0 buf)).
  { split; [exact BO|]. intros i f FX' F'. assert (i = j) as -> by congruence. assert (f = g) as -> by congruence. rewrite NW. split; [exact RM|congruence]. }
  pose proof (wf_fok _ W j g F) as FK. pose proof (fo_inv _ FK) as FI.
  pose proof (xdfput_spec junk (s_w s) dst 0 buf j g FX F FI BO ltac:(rewrite NW; exact RM) ltac:(congruence)) as PS.
  pose proof (fun c s' => step_put s c s' junk dst 0 buf W OK) as SP. cbn [step] in *.
  destruct (xdfput junk (s_w s) dst 0 buf) as [[[c w'] b']|] eqn:X; cbn [bind] in *.
  2: { intros KP LD. apply PS. apply std_fits; assumption. }
  destruct (SP _ _ eq_refl) as [W1 _]. clear SP. split; [exact W1|]. split; [exact OK|]. split; [reflexivity|].
  destruct PS as (OT & g1 & F1 & PS). split; [intros i NI; apply OT; exact NI|]. exists g1. split; [exact F1|]. cbn [s_w] in *.
  pose proof (page_wlen_pos (f_plen g)) as PW.
  destruct PS as [(C & Q)|(-> & _ & _ & k & r & e1 & e0 & PE & WH & BDb & fk & FK1 & FK2 & FK3 & FK4)].
  - pose proof Q as (Q1 & Q2 & Q3 & Q4 & Q5 & Q6 & Q7). constructor; [exact Q2|lia|unfold fsize in *; rewrite Q6; lia|]. left. rewrite Q7.
    eapply put_code; try eassumption. rewrite NB.
    replace 64 with (32 * 2) by lia. rewrite Z.mul_mod_distr_l by lia. lia.
  - destruct BO as (B1 & B2 & B3 & B4). rewrite BDb, NW in PE. cbn [put_tgt Z.eqb] in PE.
    assert (NWs : 2 <= Z.of_nat (length ws)) by lia.
    assert (HW : mk_hd (w_idtyp (nth 0 (b_data buf) 0)) (Z.of_nat (length ws) / 2) = hd 0 ws).
    { rewrite <- WL. rewrite BD in *. destruct ws as [|x l]; cbn [length] in NWs; [lia|]. cbn [app nth hd]. apply mk_hd_eta. inversion B1; assumption. }
    assert (PWD : firstn (Z.to_nat (Z.of_nat (length ws))) (stamped (b_data buf) (e_addr e1) (Z.of_nat (length ws))) = hd 0 ws :: w32 (e_addr e1) :: skipn 2 ws).
    { rewrite <- NW. rewrite stamped_put by lia. unfold put_words. rewrite NW, HW. f_equal. f_equal. rewrite Nat2Z.id, BD, firstn_app, firstn_all, Nat.sub_diag.
      cbn [firstn]. rewrite app_nil_r. reflexivity. }
    pose proof (pe_inv _ _ _ _ _ _ _ PE) as FI1.
    assert (NT : put_tgt 0 = None) by reflexivity.
    assert (LV : live e1 = true).
    { pose proof (pe_idtyp _ _ _ _ _ _ _ PE) as T. rewrite PWD in T. cbn [nth] in T. unfold live. rewrite T. rewrite BD in B4.
      destruct ws as [|x ws']; [cbn [length] in NWs; lia|]. cbn [hd app nth] in *. apply andb_true_intro. split; apply Z.leb_le; lia. }
    assert (ENN : ent g k r = None) by (destruct WH as [WH|(H0 & _)]; [exact WH|lia]).
    assert (OTH : forall a b, (a, b) <> (k, r) -> ent g1 a b = ent g a b) by (intros a b D; apply (pe_other _ _ _ _ _ _ _ PE a b D); discriminate).
    constructor; [apply (pe_stat _ _ _ _ _ _ _ PE)|apply (pe_np _ _ _ _ _ _ _ PE)|..].
    + pose proof (pe_fsiz _ _ _ _ _ _ _ PE) as FZ. rewrite PWD in FZ. cbn [length] in FZ. rewrite skipn_length in FZ. lia.
    + right. exists k, r, e1, (hd 0 ws :: w32 (e_addr e1) :: skipn 2 ws). split.
      { destruct (pe_where _ _ _ _ _ _ _ PE) as [D|(_ & K & N)]; [discriminate|]. apply positions_snoc; auto. rewrite (pe_new _ _ _ _ _ _ _ PE). discriminate. }
      split. { apply abs_live. split; [apply (pe_new _ _ _ _ _ _ _ PE)|]. split; [exact LV|]. rewrite (pe_data _ _ _ _ _ _ _ PE). exact PWD. }
      split; [exists (w32 (e_addr e1)); reflexivity|]. split.
      * intros KP LE. pose proof (g_plen _ _ (proj1 FI)) as PL.
        assert (E1 : e1 = mk_hd (w_idtyp (nth 0 (b_data buf) 0)) (Z.of_nat (length ws) / 2) :: w32 (e_addr e1) :: firstn (2 * (f_plen g - 1)) (skipn 2 (b_data buf))).
        { rewrite <- NW. apply (std_keyed fk g e0); [exact FI|rewrite FK1; exact KP|exact FK2|exact FK3|lia|exact FK4]. }
        rewrite E1 at 1. rewrite HW. rewrite BD. destruct ws as [|x [|y l]]; cbn [length] in NWs; try lia. cbn [app nth hd skipn].
        replace (2 * f_plen g)%nat with (S (S (2 * (f_plen g - 1)))) by lia. cbn [firstn]. cbn [length] in LE.
        rewrite firstn_app. replace (2 * (f_plen g - 1) - length l)%nat with 0%nat by lia. cbn [firstn]. rewrite app_nil_r. reflexivity.
      * intros a b IN. apply (positions_some g a b FI) in IN. assert (D : (a, b) <> (k, r)) by congruence.
        unfold abs. rewrite (OTH a b D). destruct (ent g a b) as [e|] eqn:E; [|reflexivity]. rewrite (pe_keep _ _ _ _ _ _ _ PE a b e E D). reflexivity.
Qed.

(** * The copying loop *)
Definition grown (A : content) (L : list (nat * nat)) (g g' : fte) : Prop :=
  exists new, positions (page_sizes g') = positions (page_sizes g) ++ new /\
    (forall k r, In (k, r) (positions (page_sizes g)) -> abs g' k r = abs g k r) /\
    Forall2 (fun x y => exists e ws e' ws', A (fst x) (snd x) = Some (Some (e, ws)) /\ abs g' (fst y) (snd y) = Some (Some (e', ws')) /\
                        same_record ws ws' /\ (f_kp g' = std_kp -> (2 * f_plen g' <= length ws)%nat -> e' = firstn (2 * f_plen g') ws')) L new.

Lemma grown_nil A g : grown A [] g g.
Proof. exists []. rewrite app_nil_r. auto. Qed.

Lemma grown_cons A L g g1 g' k r e ws : A k r = Some (Some (e, ws)) -> added g g1 ws -> (length (f_pages g1) < MAX_DIR_PAGES)%nat -> stat g1 g' -> grown A L g1 g' -> grown A ((k, r) :: L) g g'.
Proof.
  intros AK [ST NP SZ EF] LP ST2 (new & P & K & F). destruct EF as [EF|(k1 & r1 & e' & ws' & P1 & A1 & SR & KY & K1)]; [lia|].
  exists ((k1, r1) :: new). split; [rewrite P, P1, <- app_assoc; reflexivity|]. split.
  - intros a b I. rewrite K by (rewrite P1; apply in_or_app; left; exact I). apply K1. exact I.
  - constructor; [|exact F]. exists e, ws, e', ws'. cbn [fst snd]. split; [exact AK|]. split.
    { rewrite K by (rewrite P1; apply in_or_app; right; left; reflexivity). exact A1. }
    split; [exact SR|]. destruct ST as (_ & _ & _ & S1 & S2 & _). destruct ST2 as (_ & _ & _ & S3 & S4 & _).
    rewrite S3, S1, S4, S2. exact KY.
Qed.

Lemma chain_top f L : finv f -> chain f (fsize f) L -> L = [].
Proof.
  intros FI C. inversion C as [|x l o L' X C' E1 E2]; [reflexivity|]. exfalso. pose proof (g_in _ _ (proj1 FI) _ _ _ X) as IN. fold (fsize f) in IN. lia.
Qed.

Lemma file_index_others w w' i j f g g' iun : w_file w j = Some g -> w_file w' j = Some g' -> f_iun g' = f_iun g -> (forall k, k <> j -> w_file w' k = w_file w k) ->
  file_index w iun = Some i -> w_file w i = Some f -> file_index w' iun = Some i.
Proof.
  intros G G' IU O FX F. unfold file_index in *. rewrite <- FX. generalize (seq 0 MAX_XDF_FILES) as l. clear FX.
  induction l as [|a l IH]; [reflexivity|]. cbn [find]. destruct (Nat.eq_dec a j) as [->|N]; [rewrite G, G', IU|rewrite (O a N)]; rewrite IH; reflexivity.
Qed.

Lemma Z_even_mod a : (2 * a) mod 2 = 0.
Proof. rewrite Z.mul_comm. apply Z.mod_mul. lia. Qed.

Lemma loop_spec f0 junk nsplit src dst i fs j : clean f0 -> dsize (f_disk f0) = fsize f0 -> all_words (f_disk f0) -> f_disk fs = f_disk f0 -> i <> j -> nsplit <= 1 ->
  forall x L, chain f0 x L -> forall fuel mm nb s g, x < fsize f0 -> wf s -> file_index (s_w s) src = Some i -> w_file (s_w s) i = Some fs ->
  file_index (s_w s) dst = Some j -> w_file (s_w s) j = Some g -> writable g -> 2505 <= mm ->
  fsize g + (fsize f0 - x) + (Z.of_nat (length L) + 1) * page_wlen (f_plen g) + 1 < 2 ^ 31 ->
  match use_loop fuel junk nsplit (fsize f0) src dst mm (x + 1) nb s with
  | None => fsize f0 - x <= 2 * Z.of_nat fuel -> f_kp g = std_kp -> False
  | Some s' => wf s' /\ s_fs s' = s_fs s /\ (forall k, k <> j -> w_file (s_w s') k = w_file (s_w s) k) /\
      exists g' l, w_file (s_w s') j = Some g' /\ hist any s l s' /\ stat g g' /\ (length (f_pages g) <= length (f_pages g'))%nat /\
        ((MAX_DIR_PAGES <= length (f_pages g'))%nat \/ grown (abs f0) L g g')
  end.
Proof.
  intros CL DS AW DF IJ NS x L C. pose proof CL as (FI & _). pose proof FI as [G I]. pose proof (g_small _ _ G) as SM. fold (fsize f0) in SM.
  induction C as [|x l o L X C IH]; intros fuel mm nb s g XT W FX F FD FG WB MM RM; [lia|].
  destruct fuel as [|fuel]; [intros H; lia|]. cbn [use_loop]. rewrite FX. cbn [bind]. rewrite F. cbn [bind]. rewrite DF.
  pose proof (g_in _ _ G _ _ _ X) as IN. fold (fsize f0) in IN.
  destruct (part_head f0 o x l CL X) as (h0 & h1 & R2 & AD & LN & OO).
  assert (EV : exists a b c, x = 2 * a /\ l = 2 * b /\ fsize f0 = 2 * c) by (do 3 eexists; split; [symmetry; exact AD|]; split; [symmetry; exact LN|unfold fsize; reflexivity]).
  destruct EV as (ea & eb & ec & EA & EB & EC).
  rewrite waread_plain by (rewrite ?DS; lia). cbn [bind snd]. replace (Z.to_nat (x + 1 - 1)) with (Z.to_nat x) by lia.
  change (Z.to_nat 2) with 2%nat. change (firstn 2 (skipn (Z.to_nat x) (f_disk f0))) with (range (f_disk f0) (Z.to_nat x) 2). rewrite R2. cbn [nth].
  rewrite AD.
  replace (s32 (w32 (x + 1))) with (x + 1). 2: { rewrite w32_id by (unfold word_ok; lia). unfold s32. rewrite (proj2 (Z.ltb_lt _ _)) by lia. reflexivity. }
  rewrite Z.eqb_refl. rewrite LN.
  assert (NSP : (1 <? nsplit) = false) by (apply Z.ltb_ge; lia). rewrite NSP.
  (* what remains, from a state where the destination is [g1] *)
  assert (REST : forall mm nb s1 g1 L1, wf s1 -> s_fs s1 = s_fs s -> (forall k, k <> j -> w_file (s_w s1) k = w_file (s_w s) k) -> w_file (s_w s1) j = Some g1 ->
    stat g g1 -> (length (f_pages g) <= length (f_pages g1))%nat -> 2505 <= mm ->
    fsize g1 + (fsize f0 - (x + l)) + (Z.of_nat (length L) + 1) * page_wlen (f_plen g) + 1 < 2 ^ 31 ->
    (forall g', stat g1 g' -> (length (f_pages g1) <= length (f_pages g'))%nat -> (length (f_pages g') < MAX_DIR_PAGES)%nat -> grown (abs f0) L g1 g' -> grown (abs f0) L1 g g') ->
    (exists l0, hist any s l0 s1) ->
    match (if fsize f0 <=? x + 1 + l then Some s1 else use_loop fuel junk nsplit (fsize f0) src dst mm (x + 1 + l) nb s1) with
    | None => fsize f0 - x <= 2 * Z.of_nat (S fuel) -> f_kp g = std_kp -> False
    | Some s' => wf s' /\ s_fs s' = s_fs s /\ (forall k, k <> j -> w_file (s_w s') k = w_file (s_w s) k) /\
      exists g' l, w_file (s_w s') j = Some g' /\ hist any s l s' /\ stat g g' /\ (length (f_pages g) <= length (f_pages g'))%nat /\
        ((MAX_DIR_PAGES <= length (f_pages g'))%nat \/ grown (abs f0) L1 g g')
    end).
  { intros mm1 nb1 s1 g1 L1 W1 FS1 O1 F1 ST1 NP1 MM1 RM1 GR1 (l0 & H0).
    destruct (Z.leb_spec (fsize f0) (x + 1 + l)) as [TOP|TOP].
    - assert (TE : x + l = fsize f0) by lia. rewrite TE in C. assert (L = []) as -> by (apply (chain_top f0 L FI C)).
      split; [exact W1|]. split; [exact FS1|]. split; [exact O1|]. exists g1, l0. split; [exact F1|]. split; [exact H0|]. split; [exact ST1|]. split; [exact NP1|].
      destruct (Nat.le_gt_cases MAX_DIR_PAGES (length (f_pages g1))) as [|LP]; [left; assumption|right].
      apply GR1; [apply stat_refl|lia|exact LP|apply grown_nil].
    - assert (IUg : f_iun g1 = f_iun g) by apply ST1.
      assert (PLg : f_plen g1 = f_plen g) by (destruct ST1 as (_ & _ & _ & _ & E & _); exact E).
      assert (KPg : f_kp g1 = f_kp g) by (destruct ST1 as (_ & _ & _ & E & _); exact E).
      assert (WB1 : writable g1) by (apply (writable_stat _ _ ST1); exact WB).
      replace (x + 1 + l) with (x + l + 1) by lia.
      assert (FX1 : file_index (s_w s1) src = Some i) by (eapply (file_index_others (s_w s) (s_w s1)); eauto).
      assert (FD1 : file_index (s_w s1) dst = Some j) by (eapply (file_index_others (s_w s) (s_w s1)); eauto).
      assert (Fi1 : w_file (s_w s1) i = Some fs) by (rewrite O1 by exact IJ; exact F).
      assert (RM2 : fsize g1 + (fsize f0 - (x + l)) + (Z.of_nat (length L) + 1) * page_wlen (f_plen g1) + 1 < 2 ^ 31) by (rewrite PLg; exact RM1).
      pose proof (IH fuel mm1 nb1 s1 g1 ltac:(lia) W1 FX1 Fi1 FD1 F1 WB1 MM1 RM2) as IHs. clear RM2.
      destruct (use_loop fuel junk nsplit (fsize f0) src dst mm1 (x + l + 1) nb1 s1) as [s'|].
      2: { intros FU KP. apply IHs; [lia|congruence]. }
      destruct IHs as (W' & FS' & O' & g' & l1 & F' & H1 & ST' & NP' & EF').
      split; [exact W'|]. split; [congruence|]. split; [intros k K; rewrite O' by exact K; apply O1; exact K|]. exists g', (l0 ++ l1).
      split; [exact F'|]. split; [eapply hist_app; eassumption|]. split; [eapply stat_trans; eassumption|]. split; [lia|].
      destruct (Nat.le_gt_cases MAX_DIR_PAGES (length (f_pages g'))) as [|LP]; [left; assumption|right]. destruct EF' as [EF'|EF']; [lia|]. apply GR1; auto. }
  pose proof (page_wlen_pos (f_plen g)) as PW.
  assert (SKIP : (0 <? w_idtyp h0) && (w_idtyp h0 <? 127) = false ->
    match (if fsize f0 <=? x + 1 + l then Some s else use_loop fuel junk nsplit (fsize f0) src dst mm (x + 1 + l) nb s) with
    | None => fsize f0 - x <= 2 * Z.of_nat (S fuel) -> f_kp g = std_kp -> False
    | Some s' => wf s' /\ s_fs s' = s_fs s /\ (forall k, k <> j -> w_file (s_w s') k = w_file (s_w s) k) /\
      exists g' l, w_file (s_w s') j = Some g' /\ hist any s l s' /\ stat g g' /\ (length (f_pages g) <= length (f_pages g'))%nat /\
        ((MAX_DIR_PAGES <= length (f_pages g'))%nat \/ grown (abs f0) (match o with ORec k r => match ent f0 k r with Some e => if live e then (k, r) :: L else L | None => L end | _ => L end) g g')
    end).
  { intros NL. assert (LL : match o with ORec k r => match ent f0 k r with Some e => if live e then (k, r) :: L else L | None => L end | _ => L end = L).
    { destruct o as [|k|k r]; [reflexivity|reflexivity|]. destruct OO as (e & E & _ & _ & LE & _). rewrite E, <- LE, NL. reflexivity. }
    rewrite LL in *. apply (REST mm nb s g L); auto; [apply stat_refl|nia|exists []; constructor]. }
  destruct ((0 <? w_idtyp h0) && (w_idtyp h0 <? 127)) eqn:T; [clear SKIP|cbn [bind]; exact (SKIP eq_refl)].
  destruct o as [|k|k r]; try (rewrite OO in T; discriminate). destruct OO as (e & E & XE & LE & LV & TY). symmetry in LV.
  rewrite E, LV in RM |- *. cbn [length] in RM.
  rewrite (proj2 (Z.leb_le (x + 1 + l - 1) (fsize f0))) by lia.
  rewrite waread_plain by (rewrite ?DS; lia). cbn [bind snd]. replace (Z.to_nat (x + 1 - 1)) with (Z.to_nat x) by lia.
  change (firstn (Z.to_nat l) (skipn (Z.to_nat x) (f_disk f0))) with (range (f_disk f0) (Z.to_nat x) (Z.to_nat l)).
  assert (RD : range (f_disk f0) (Z.to_nat x) (Z.to_nat l) = rec_data f0 e) by (unfold rec_data; rewrite <- XE, <- LE; reflexivity).
  rewrite RD. set (ws := rec_data f0 e) in *.
  set (mm1 := if mm <? w_lng h0 + 100 + 10 then w_lng h0 + 100 + 10 else mm).
  assert (MM1 : 2505 <= mm1 /\ w_lng h0 + 110 <= mm1) by (unfold mm1; destruct (Z.ltb_spec mm (w_lng h0 + 100 + 10)); lia).
  assert (LW : length ws = Z.to_nat l). { rewrite <- RD. apply range_length. unfold dsize in DS. lia. }
  assert (LG : 0 <= w_lng h0 < 2 ^ 24) by apply w_lng_range.
  set (bf := use_buf junk src mm1 (Z.to_nat l) ws).
  set (tail := map (fun k => w32 (junk k)) (seq 0 (Z.to_nat (2 * mm1 - 10) - Z.to_nat l))).
  assert (BD : b_data bf = ws ++ tail). { unfold bf, use_buf. cbn [b_data]. rewrite LW, Nat.sub_diag. reflexivity. }
  assert (HW : nth 0 ws 0 = h0).
  { rewrite <- RD. rewrite <- (nth_firstn_d 2 (range (f_disk f0) (Z.to_nat x) (Z.to_nat l)) 0 0) by lia. rewrite <- range_2 by lia. rewrite R2. reflexivity. }
  assert (TI : 1 <= w_idtyp h0 <= 125).
  { rewrite (TY LV). unfold live in LV. apply andb_prop in LV. destruct LV as [V1 V2]. apply Z.leb_le in V1, V2. lia. }
  assert (BO : buf_ok bf).
  { unfold buf_ok. rewrite BD. split; [|split; [|split]].
    - apply all_words_app. split; [rewrite <- RD; unfold range; apply all_words_firstn, all_words_skipn; exact AW|].
      unfold tail, all_words. apply Forall_forall. intros y Y. apply in_map_iff in Y. destruct Y as (q & <- & _). apply w32_range.
    - unfold bf, use_buf. cbn [b_nbits]. rewrite Z.mul_comm, Z.div_mul by lia. lia.
    - unfold bf, use_buf. cbn [b_nbits]. rewrite Z.mul_comm, Z.div_mul by lia. rewrite app_length. lia.
    - rewrite app_nth1 by lia. rewrite HW. exact TI. }
  assert (PO : room g (Z.of_nat (length ws))) by (unfold room; nia).
  pose proof (use_put s junk dst j g bf ws tail W FD FG WB BD) as UP.
  specialize (UP ltac:(unfold bf, use_buf; cbn [b_nbits]; rewrite LW; reflexivity)).
  specialize (UP ltac:(replace (Z.of_nat (length ws)) with (2 * w_lng h0) by lia; apply Z_even_mod) BO PO).
  specialize (UP ltac:(rewrite HW; replace (Z.of_nat (length ws)) with (w_lng h0 * 2) by lia; rewrite Z.div_mul by lia; reflexivity)).
  specialize (UP ltac:(unfold bf, use_buf; cbn [b_iun]; congruence)).
  destruct (step (OpPut junk dst 0 bf) s) as [[c s1]|] eqn:ST; cbn [bind].
  2: { intros _ KP. apply UP; [exact KP|]. pose proof (g_plen _ _ (proj1 (fo_inv _ (wf_fok _ W j g FG)))) as PL.
       rewrite BD, app_length. unfold tail. rewrite map_length, seq_length. lia. }
  destruct UP as (W1 & OK & FS1 & O1 & g1 & F1 & AD1). pose proof AD1 as [A1 A2 A3 A4].
  apply (REST mm1 (nb + 1) s1 g1 ((k, r) :: L)); auto; [lia|nia| |].
  - intros g' S' N' LP GR. apply (grown_cons (abs f0) L g g1 g' k r e ws); auto; [|lia]. apply abs_live. auto.
  - exists [(OpPut junk dst 0 bf, c)]. econstructor; [exact OK|exact Logic.I|exact ST|constructor].
Qed.
