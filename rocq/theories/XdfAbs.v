(** The directory of an open file as a map from slots to records, and the exact
    effect of each call on it. *)
From Coq Require Import ZArith List Lia Bool.
From Verif Require Import Bits Handles HandlesFacts WaFile Xdf XdfLib XdfInv XdfDel XdfPut XdfPut2 XdfPut3 XdfPut4 XdfOpen XdfClose XdfClose2 XdfReopen XdfCreate XdfSearch.
Import ListNotations.
Open Scope Z_scope.

(** Slot (page, record): unused, deleted, or a record: its directory entry and
    its words on disk. *)
Definition abs (f : fte) (k r : nat) : option (option (list Z * list Z)) :=
  match ent f k r with
  | None => None
  | Some e => Some (if live e then Some (e, rec_data f e) else None)
  end.

Lemma abs_live f k r e ws : abs f k r = Some (Some (e, ws)) <-> ent f k r = Some e /\ live e = true /\ rec_data f e = ws.
Proof.
  unfold abs. destruct (ent f k r) as [e0|]; [|split; [discriminate|intros (A & _); discriminate]].
  destruct (live e0) eqn:L; split.
  - intros H. injection H as -> <-. auto.
  - intros (A & B & C). injection A as ->. rewrite C. reflexivity.
  - discriminate.
  - intros (A & B & C). injection A as ->. congruence.
Qed.
Lemma abs_dead f k r : abs f k r = Some None <-> exists e, ent f k r = Some e /\ live e = false.
Proof.
  unfold abs. destruct (ent f k r) as [e0|]; [|split; [discriminate|intros (e & A & _); discriminate]].
  destruct (live e0) eqn:L; split; try discriminate.
  - intros (e & A & B). congruence.
  - intros _. exists e0. auto.
  - reflexivity.
Qed.
Lemma abs_none f k r : abs f k r = None <-> ent f k r = None.
Proof. unfold abs. destruct (ent f k r); split; intros; try discriminate; reflexivity. Qed.

Lemma quiet_abs f f' : quiet f f' -> forall k r, abs f' k r = abs f k r.
Proof.
  intros (_ & _ & E & D & _) k r. unfold abs, ent, rec_data. rewrite E, D. reflexivity.
Qed.

Definition eq2 (a b c d : nat) : bool := Nat.eqb a c && Nat.eqb b d.
Lemma eq2_spec a b c d : reflect ((a, b) = (c, d)) (eq2 a b c d).
Proof.
  unfold eq2. destruct (Nat.eqb_spec a c) as [->|N]; cbn [andb].
  - destruct (Nat.eqb_spec b d) as [->|N]; constructor; congruence.
  - constructor. congruence.
Qed.
Definition is_tgt (t : option (nat * nat)) (j s : nat) : bool := match t with Some (a, b) => eq2 j s a b | None => false end.

Lemma put_abs f f' t k r e1 ws : put_effect f f' t k r e1 ws -> live e1 = true -> forall j s,
  abs f' j s = if eq2 j s k r then Some (Some (e1, ws)) else if is_tgt t j s then Some None else abs f j s.
Proof.
  intros P L j s. destruct (eq2_spec j s k r) as [E|N].
  - injection E as -> ->. apply abs_live. split; [apply (pe_new _ _ _ _ _ _ _ P)|]. split; [exact L|apply (pe_data _ _ _ _ _ _ _ P)].
  - unfold is_tgt. destruct t as [[a b]|].
    + destruct (eq2_spec j s a b) as [E|N2].
      * injection E as -> ->. destruct (pe_tgt _ _ _ _ _ _ _ P a b eq_refl) as (e & E1 & E2 & E3). apply abs_dead.
        eexists. split; [apply E3; congruence|]. destruct e as [|x e]; [discriminate|]. unfold live, e_idtyp. cbn [upd nth]. rewrite hd_idtyp. reflexivity.
      * unfold abs. rewrite (pe_other _ _ _ _ _ _ _ P j s N) by congruence. destruct (ent f j s) as [e|] eqn:E; [|reflexivity].
        rewrite (pe_keep _ _ _ _ _ _ _ P j s e E N). reflexivity.
    + unfold abs. rewrite (pe_other _ _ _ _ _ _ _ P j s N) by congruence. destruct (ent f j s) as [e|] eqn:E; [|reflexivity].
      rewrite (pe_keep _ _ _ _ _ _ _ P j s e E N). reflexivity.
Qed.

(** * c_xdfdel *)
Definition no_del (f : fte) : bool := (hget (f_hdr f) H_RWFLG =? RDMODE) || (hget (f_hdr f) H_RWFLG =? APPEND) || f_ro f.

Definition del_code (f : fte) (k r : nat) : Z :=
  if no_del f then ERR_RDONLY else
  if (length (f_pages f) <=? k)%nat then ERR_BAD_PAGENO else
  match abs f k r with None => ERR_BAD_HNDL | Some None => ERR_DELETED | Some (Some _) => 0 end.

Definition del_eff (f f' : fte) (k r : nat) : Prop :=
  finv f' /\ stat f f' /\ f_disk f' = f_disk f /\ f_log f' = f_log f /\ fsize f' = fsize f /\
  length (f_pages f') = length (f_pages f) /\ nents (f_pages f') = nents (f_pages f) /\
  f_target f' = f_target f /\ f_cmask f' = f_cmask f /\
  forall j s, abs f' j s = if eq2 j s k r then Some None else abs f j s.

Lemma del_file_eff f k r p e : finv f -> nth_error (f_pages f) k = Some p -> ent f k r = Some e -> live e = true -> del_eff f (del_file f k r p e) k r.
Proof.
  intros FI P E L. pose proof FI as [G I]. set (e' := upd e 0 (mk_hd 254 (e_lng e))). set (p' := p_setmod (p_setent p r e') true).
  assert (NP : nents (upd (f_pages f) k p') = nents (f_pages f)) by (apply (nents_upd_same _ _ p); auto).
  pose proof (g_hlen16 _ _ G) as H16.
  unfold del_eff. split; [split|split; [|split; [reflexivity|split; [reflexivity|split; [|split; [|split; [exact NP|split; [reflexivity|split; [reflexivity|]]]]]]]]].
  - cbn [del_file f_setmod f_sethdr f_setpages f_pages]. fold e' p'. rewrite NP. apply del_ginv; assumption.
  - apply del_gimg; assumption.
  - st. cbn [del_file f_setmod f_sethdr f_setpages f_hdr]. hk.
  - unfold fsize. cbn [del_file f_setmod f_sethdr f_setpages f_hdr]. hs. reflexivity.
  - cbn [del_file f_setmod f_sethdr f_setpages f_pages]. apply upd_length.
  - intros j s. unfold abs, ent. cbn [del_file f_setmod f_sethdr f_setpages f_pages]. fold e' p'. rewrite NP.
    rewrite (entry_at_upd _ _ k r p p' e' P eq_refl). fold (eq2 j s k r). fold (ent f k r). rewrite E. destruct (eq2 j s k r); [|reflexivity].
    destruct (entry_shape _ _ _ _ _ G E) as [EL _]. pose proof (g_plen _ _ G).
    destruct (e_upd0 e 254 (e_lng e) ltac:(lia)) as (T & _). fold e' in T. unfold live. rewrite T. reflexivity.
Qed.

Lemma abs_page f k r p : finv f -> nth_error (f_pages f) k = Some p -> Z.of_nat r <> p_nent p ->
  if p_nent p <? Z.of_nat r then abs f k r = None
  else exists e, nth_error (p_ents p) r = Some e /\ ent f k r = Some e.
Proof.
  intros FI P N. pose proof FI as [G I]. destruct (Z.ltb_spec (p_nent p) (Z.of_nat r)).
  - apply abs_none. unfold ent, entry_at. rewrite (nents_nth _ _ _ P), P. replace (r <? Z.to_nat (p_nent p))%nat with false; [reflexivity|].
    symmetry. apply Nat.ltb_ge. lia.
  - destruct (nth_error (p_ents p) r) as [e|] eqn:E.
    + exists e. split; [reflexivity|]. apply (ent_some _ _ _ _ _ FI P); [lia|exact E].
    + apply nth_error_None in E. destruct (page_nth_ok _ _ _ _ G P) as (_ & _ & LE & _). pose proof (nent_bound _ _ _ G P). unfold EPP in LE. lia.
Qed.

Lemma xdfdel_spec w h f : w_file w (hidx w h) = Some f -> finv f -> real_handle f h ->
  exists w', xdfdel w h = Some (del_code f (hpage h) (hrec h), w') /\
    if del_code f (hpage h) (hrec h) =? 0
    then others w w' (hidx w h) /\ exists f', w_file w' (hidx w h) = Some f' /\ del_eff f f' (hpage h) (hrec h)
    else w' = w.
Proof.
  intros F FI RH. pose proof FI as [G I]. unfold del_code, no_del.
  destruct (Z.eqb_spec (hget (f_hdr f) H_RWFLG) RDMODE) as [E1|N1].
  { exists w. unfold xdfdel. rewrite F, E1. split; reflexivity. }
  destruct (Z.eqb_spec (hget (f_hdr f) H_RWFLG) APPEND) as [E2|N2].
  { exists w. unfold xdfdel. rewrite F, E2. split; reflexivity. }
  destruct (f_ro f) eqn:RO.
  { exists w. unfold xdfdel. rewrite F, RO. rewrite (proj2 (Z.eqb_neq _ _) N1), (proj2 (Z.eqb_neq _ _) N2). split; reflexivity. }
  cbn [orb]. destruct (Nat.leb_spec (length (f_pages f)) (hpage h)) as [LP|LP].
  { exists w. unfold xdfdel. rewrite F, RO. rewrite (proj2 (Z.eqb_neq _ _) N1), (proj2 (Z.eqb_neq _ _) N2). cbn [orb].
    rewrite (locate_own _ _ _ _ _ G). rewrite (proj2 (Nat.ltb_ge _ _)) by exact LP. split; reflexivity. }
  destruct (nth_error (f_pages f) (hpage h)) as [p|] eqn:P. 2: { apply nth_error_None in P. lia. }
  pose proof (abs_page f (hpage h) (hrec h) p FI P (RH p P)) as AP.
  destruct (p_nent p <? Z.of_nat (hrec h)) eqn:RN.
  { rewrite AP. exists w. unfold xdfdel. rewrite F, RO. rewrite (proj2 (Z.eqb_neq _ _) N1), (proj2 (Z.eqb_neq _ _) N2). cbn [orb].
    rewrite (locate_own _ _ _ _ _ G). rewrite (proj2 (Nat.ltb_lt _ _)) by exact LP. rewrite (entry_of_own _ _ _ _ _ _ F P), RN. split; reflexivity. }
  destruct AP as (e & EP & EE). destruct (live e) eqn:L.
  - assert (A : abs f (hpage h) (hrec h) = Some (Some (e, rec_data f e))) by (apply abs_live; auto). rewrite A.
    destruct (xdfdel_eff _ w (hidx w h) f h p e F G eq_refl P ltac:(apply Z.ltb_ge in RN; lia) EE L N1 N2 RO) as (w' & X & O & W').
    exists w'. split; [exact X|]. cbn [Z.eqb]. split; [exact O|]. eexists. split; [exact W'|]. apply del_file_eff; assumption.
  - assert (A : abs f (hpage h) (hrec h) = Some None) by (apply abs_dead; eauto). rewrite A.
    exists w. unfold xdfdel. rewrite F, RO. rewrite (proj2 (Z.eqb_neq _ _) N1), (proj2 (Z.eqb_neq _ _) N2). cbn [orb].
    rewrite (locate_own _ _ _ _ _ G). rewrite (proj2 (Nat.ltb_lt _ _)) by exact LP. rewrite (entry_of_own _ _ _ _ _ _ F P), RN, EP.
    destruct (live_iff e (g_ents _ _ G _ _ _ EE)) as [L1 L2]. rewrite L in L1. rewrite L2.
    destruct (deleted (e_idtyp e)); [|discriminate]. split; reflexivity.
Qed.

(** * c_xdfget *)
Definition get_code (f : fte) (k r : nat) : Z :=
  if (length (f_pages f) <=? k)%nat then ERR_BAD_PAGENO else
  match abs f k r with None => ERR_BAD_HNDL | Some None => ERR_DELETED | Some (Some _) => 0 end.

(** A caller's buffer that can take [n] words: nwords positive, as many words
    in data[]. *)
Definition takes (buf : buffer) (n : nat) : Prop := Z.of_nat n <= s32 (b_nwords buf) + 1 /\ 0 <= s32 (b_nwords buf) /\ (n <= length (b_data buf))%nat.

Lemma xdfget_live w h f e ws buf : w_file w (hidx w h) = Some f -> finv f -> abs f (hpage h) (hrec h) = Some (Some (e, ws)) ->
  takes buf (length ws) ->
  exists b, xdfget w h buf = Some (0, b) /\ firstn (length ws) (b_data b) = ws /\ b_nbits b = 32 * Z.of_nat (length ws) /\
    skipn (length ws) (b_data b) = skipn (length ws) (b_data buf).
Proof.
  intros F FI A (T1 & T2 & T3). pose proof FI as [G I]. apply abs_live in A. destruct A as (E & L & D).
  destruct (ent_inv _ _ _ _ E) as (p & P & R & EP). destruct (rec_ext_bound _ _ _ _ _ G E) as (X1 & X2 & X3).
  pose proof (g_size _ _ G) as SZ. fold (fsize f) in SZ.
  assert (LW : length ws = Z.to_nat (2 * e_lng e)).
  { rewrite <- D. unfold rec_data, range. rewrite firstn_length, skipn_length. unfold dsize in SZ. lia. }
  unfold xdfget. rewrite F, (locate_own _ _ _ _ _ G).
  rewrite (proj2 (Nat.ltb_lt _ _)) by (apply nth_error_Some; congruence). cbn [fst]. rewrite F. cbn [bind].
  rewrite (entry_of_own _ _ _ _ _ _ F P), (proj2 (Z.ltb_ge _ _)) by lia. rewrite EP.
  destruct (live_facts e L) as [-> ->]. cbv zeta.
  rewrite (proj2 (Z.ltb_ge (s32 (b_nwords buf)) 0)) by exact T2. cbn [andb]. rewrite Z.abs_eq by exact T2.
  rewrite (proj2 (Z.ltb_ge (s32 (b_nwords buf) + 1) (2 * e_lng e))) by lia. rewrite LW in T3. rewrite (proj2 (Nat.ltb_ge _ _)) by exact T3.
  unfold waread. rewrite (proj2 (Z.ltb_ge _ _)) by lia. rewrite (proj2 (Z.eqb_neq _ _)) by lia. rewrite (proj2 (Z.ltb_ge _ _)) by lia.
  rewrite !Z.add_0_r, !Z.sub_0_r. rewrite (proj2 (Z.ltb_ge (dsize (f_disk f)) _)) by lia. cbv zeta. rewrite (proj2 (Z.eqb_neq _ _)) by lia. rewrite (proj2 (Z.ltb_ge _ _)) by lia.
  cbn [bind fst snd]. rewrite Z.eqb_refl. eexists. split; [reflexivity|]. cbn [b_data b_nbits].
  replace (Z.to_nat (2 * (e_addr e - 1) + 1 - 1)) with (Z.to_nat (2 * (e_addr e - 1))) by lia.
  change (firstn (Z.to_nat (2 * e_lng e)) (skipn (Z.to_nat (2 * (e_addr e - 1))) (f_disk f))) with (rec_data f e). rewrite D.
  split; [|split].
  - rewrite firstn_app, Nat.sub_diag, firstn_all, app_nil_r. reflexivity.
  - rewrite LW. unfold w32. rewrite Z.mod_small by (pose proof (w_lng_range (nth 0 e 0)); fold (e_lng e) in *; lia). lia.
  - rewrite skipn_app, Nat.sub_diag, skipn_all. cbn [app skipn]. rewrite skipn_app, repeat_length. rewrite LW at 1. rewrite skipn_all2 by (rewrite repeat_length; lia).
    rewrite LW, Nat.sub_diag. reflexivity.
Qed.

Lemma xdfget_dead w h f buf : w_file w (hidx w h) = Some f -> finv f -> real_handle f h -> get_code f (hpage h) (hrec h) <> 0 ->
  xdfget w h buf = Some (get_code f (hpage h) (hrec h), buf).
Proof.
  intros F FI RH. pose proof FI as [G I]. unfold get_code, xdfget. rewrite F, (locate_own _ _ _ _ _ G).
  destruct (Nat.leb_spec (length (f_pages f)) (hpage h)) as [LP|LP].
  { rewrite (proj2 (Nat.ltb_ge _ _)) by exact LP. reflexivity. }
  rewrite (proj2 (Nat.ltb_lt _ _)) by exact LP. cbn [fst]. rewrite F. cbn [bind].
  destruct (nth_error (f_pages f) (hpage h)) as [p|] eqn:P. 2: { apply nth_error_None in P. lia. }
  pose proof (abs_page f (hpage h) (hrec h) p FI P (RH p P)) as AP. rewrite (entry_of_own _ _ _ _ _ _ F P).
  destruct (p_nent p <? Z.of_nat (hrec h)) eqn:RN; [rewrite AP; reflexivity|].
  destruct AP as (e & EP & EE). rewrite EP. unfold abs. rewrite EE. destruct (live_iff e (g_ents _ _ G _ _ _ EE)) as [L1 L2]. rewrite L2.
  destruct (live e); [intros Q; contradiction|]. intros _. destruct (deleted (e_idtyp e)); [reflexivity|discriminate].
Qed.

(** * Checkpoint and close *)
Lemma close_abs f f' : close_effect f f' -> forall k r, abs f' k r = abs f k r.
Proof.
  intros C k r. pose proof (ce_ent _ _ C k r) as E. unfold abs. destruct (ent f k r) as [e|] eqn:E1; destruct (ent f' k r) as [e'|] eqn:E2; try contradiction; [|reflexivity].
  f_equal. destruct (live e) eqn:L.
  - assert (e' = e) as -> by (destruct E as [->| ->]; [reflexivity|apply live_close; exact L]). rewrite L, (ce_data _ _ C k r e E1 L). reflexivity.
  - replace (live e') with false; [reflexivity|]. destruct E as [->| ->]; [congruence|]. symmetry. rewrite <- L.
    destruct e as [|x e]; [reflexivity|]. apply close_ent_fields. cbn. lia.
Qed.
