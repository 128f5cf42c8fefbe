(** Invariant of histories, and the exact effect of each call on the records
    of all files. *)
From Coq Require Import ZArith List Lia Bool.
From Verif Require Import Bits Handles HandlesFacts WaFile Xdf XdfLib XdfInv XdfDel XdfPut XdfPut2 XdfPut3 XdfPut4 XdfOpen XdfClose XdfClose2 XdfReopen XdfCreate XdfSearch XdfAbs XdfCkpt XdfLoc XdfHist.
Import ListNotations.
Open Scope Z_scope.

Definition adir := nat -> nat -> option (option (list Z * list Z)).

(** A file as a proper close leaves it. *)
Definition clean (f : fte) : Prop :=
  finv f /\ f_modified f = false /\ range (f_disk f) 0 (length (f_hdr f)) = f_hdr f /\ hget (f_hdr f) H_RWFLG = 0 /\ magic_ok (f_hdr f).

Definition img (d : disk) (A : adir) : Prop := exists f, clean f /\ f_disk f = d /\ forall k r, abs f k r = A k r.

(** The records of a file on disk: those seen by opening it for reading. *)
Definition dabs (d : disk) : adir :=
  match xdfopn (fun _ => 0) 0 true false std_kp d RDMODE with
  | Some (Go (_, f)) => abs f
  | _ => fun _ _ => None
  end.

Lemma opened_abs f iun ro std kp mode f' : opened f iun ro std kp mode f' -> forall k r, abs f' k r = abs f k r.
Proof.
  intros (_ & _ & _ & _ & _ & _ & D & _ & _ & P & _) k r. unfold abs, ent, rec_data. rewrite P, D, nents_clean, entry_at_clean. reflexivity.
Qed.

Lemma dabs_clean f : clean f -> forall k r, dabs (f_disk f) k r = abs f k r.
Proof.
  intros (A & B & C & D & E) k r. unfold dabs.
  destruct (xdfopn_spec (fun _ => 0) 0 true false std_kp f RDMODE A B C D E) as (f' & X & O & _); [intros H; discriminate|apply std_kp_ok|].
  rewrite X. apply (opened_abs _ _ _ _ _ _ _ O).
Qed.

Lemma img_dabs d A : img d A -> forall k r, dabs d k r = A k r.
Proof. intros (f & C & <- & E) k r. rewrite dabs_clean by exact C. apply E. Qed.

Record fok (f : fte) : Prop := {
  fo_inv : finv f;
  fo_t : length (f_target f) = MAX_PRIMARY_LNG;
  fo_c : length (f_cmask f) = MAX_PRIMARY_LNG;
  fo_s : f_smask f = repeat (2 ^ 32 - 1) MAX_PRIMARY_LNG;
  fo_magic : magic_ok (f_hdr f);
  fo_il : f_ilen f = Z.to_nat (h_laux (f_hdr f));
  fo_ro : ~ writable f -> f_modified f = false /\ img (f_disk f) (abs f)
}.

Record wf (s : sys) : Prop := {
  wf_seq : w_seq (s_w s) = false;
  wf_rng : forall i f, w_file (s_w s) i = Some f -> (1 <= i < MAX_XDF_FILES)%nat;
  wf_fok : forall i f, w_file (s_w s) i = Some f -> fok f;
  wf_iun : forall i j f g, w_file (s_w s) i = Some f -> w_file (s_w s) j = Some g -> f_iun f = f_iun g -> i = j;
  wf_open : forall p i, s_fs s p = Opened i -> exists f, w_file (s_w s) i = Some f;
  wf_one : forall p q i, s_fs s p = Opened i -> s_fs s q = Opened i -> p = q;
  wf_named : forall i f, w_file (s_w s) i = Some f -> exists p, s_fs s p = Opened i;
  wf_img : forall p d, s_fs s p = Shut d -> exists A, img d A
}.

(** The records of all files. *)
Definition sabs (s : sys) (p : nat) : adir :=
  match s_fs s p with
  | Absent => fun _ _ => None
  | Shut d => dabs d
  | Opened i => match w_file (s_w s) i with Some f => abs f | None => fun _ _ => None end
  end.

(** Conditions on a call: arguments the C code takes without undefined
    behaviour, sizes within what the format can describe. *)
Definition ok_op (s : sys) (o : op) : Prop :=
  match o with
  | OpCreate _ _ _ _ kp pri aux _ => keys_ok pri aux /\ kp_ok kp
  | OpOpen _ p _ _ std kp mode => kp_ok kp /\ 0 <= mode <= 4 /\ (std = true -> forall d, s_fs s p = Shut d -> nth 3 d 0 = STDR \/ nth 3 d 0 = STDS)
  | OpPut _ iun handle buf => buf_ok buf /\ forall i f, file_index (s_w s) iun = Some i -> w_file (s_w s) i = Some f ->
      room f (b_nbits buf / 32) /\ (handle <> 0 -> hidx (s_w s) (Z.abs handle) = i -> real_handle f (Z.abs handle))
  | OpDel h => forall f, w_file (s_w s) (hidx (s_w s) h) = Some f -> real_handle f h
  | _ => True
  end.

Lemma init_wf : wf init_sys.
Proof. constructor; cbn; intros; try discriminate. reflexivity. Qed.

Lemma file_index_own w iun i : file_index w iun = Some i -> exists f, w_file w i = Some f /\ f_iun f = iun /\ (i < MAX_XDF_FILES)%nat.
Proof. apply file_index_some. Qed.

Lemma file_index_none w iun : file_index w iun = None -> forall i f, (i < MAX_XDF_FILES)%nat -> w_file w i = Some f -> f_iun f <> iun.
Proof.
  unfold file_index. intros H i f L F E. pose proof (find_none _ _ H i) as Q. cbv beta in Q. rewrite F in Q. rewrite E, Z.eqb_refl in Q.
  discriminate Q. apply in_seq. lia.
Qed.

Lemma file_index_of s i f : wf s -> w_file (s_w s) i = Some f -> file_index (s_w s) (f_iun f) = Some i.
Proof.
  intros W F. destruct (file_index (s_w s) (f_iun f)) as [j|] eqn:E.
  - destruct (file_index_own _ _ _ E) as (g & G & IG & _). f_equal. eapply (wf_iun _ W); eauto.
  - exfalso. apply (file_index_none _ _ E i f); [apply (wf_rng _ W i f F)|exact F|reflexivity].
Qed.

Lemma free_slot_spec w i : free_slot w = Some i -> w_file w i = None /\ (1 <= i < MAX_XDF_FILES)%nat.
Proof.
  unfold free_slot. intros H. apply find_some in H. destruct H as [A B]. apply in_seq in A.
  destruct (w_file w i); [discriminate|]. split; [reflexivity|]. unfold MAX_XDF_FILES in *. destruct (w_seq w); lia.
Qed.

Lemma open_slot_spec w iun i : open_slot w iun = Some (Go i) -> w_file w i = None /\ (1 <= i < MAX_XDF_FILES)%nat /\ file_index w iun = None /\ 0 < iun <= 999.
Proof.
  unfold open_slot. destruct ((iun <=? 0) || (999 <? iun)) eqn:R; [discriminate|]. destruct (file_index w iun); [discriminate|].
  destruct (free_slot w) as [j|] eqn:E; [|discriminate]. intros H. injection H as <-. apply free_slot_spec in E.
  apply orb_false_elim in R. destruct R as [R1 R2]. apply Z.leb_gt in R1. apply Z.ltb_ge in R2. repeat split; try apply E; lia.
Qed.

Lemma open_slot_err w iun c : open_slot w iun = Some (Err c) -> c < 0.
Proof.
  unfold open_slot. destruct (_ || _); [intros H; injection H as <-; reflexivity|]. destruct (file_index w iun); [intros H; injection H as <-; reflexivity|].
  destruct (free_slot w); discriminate.
Qed.

Lemma magic_keep h h' : hkeep h h' -> magic_ok h -> magic_ok h'.
Proof. intros [_ K] M. unfold magic_ok in *. rewrite K; [exact M|]. unfold hkept. lia. Qed.
Lemma laux_keep h h' : hkeep h h' -> h_laux h' = h_laux h.
Proof. intros [_ K]. unfold h_laux. rewrite K; [reflexivity|]. unfold hkept, H_AUX. lia. Qed.
Lemma writable_stat f f' : stat f f' -> (writable f' <-> writable f).
Proof. intros S. pose proof (stat_rwflg _ _ S) as R. destruct S as (_ & RO & _). unfold writable. rewrite R, RO. tauto. Qed.

Lemma fok_stat f f' : fok f -> stat f f' -> finv f' -> (~ writable f -> f_modified f' = false /\ img (f_disk f') (abs f')) -> fok f'.
Proof.
  intros F S I R. pose proof (writable_stat _ _ S) as WS. destruct S as (S1 & S2 & S3 & S4 & S5 & S6 & S7).
  assert (f_ilen f' = f_ilen f /\ f_smask f' = f_smask f /\ length (f_target f') = length (f_target f) /\ length (f_cmask f') = length (f_cmask f)) as (E1 & E2 & E3 & E4) by (repeat split; congruence).
  constructor.
  - exact I.
  - rewrite E3. apply (fo_t _ F).
  - rewrite E4. apply (fo_c _ F).
  - rewrite E2. apply (fo_s _ F).
  - apply (magic_keep _ _ S7). apply (fo_magic _ F).
  - rewrite E1, (laux_keep _ _ S7). apply (fo_il _ F).
  - intros NW. apply R. tauto.
Qed.

(** Replacing one open file by a successor of itself. *)
Lemma wf_replace s w' i f f' : wf s -> w_file (s_w s) i = Some f -> others (s_w s) w' i -> w_file w' i = Some f' -> f_iun f' = f_iun f -> fok f' ->
  wf (mksys w' (s_fs s)).
Proof.
  intros W F [O1 O2] F' IU FK.
  assert (C : forall j g, w_file w' j = Some g -> (j = i /\ g = f') \/ (j <> i /\ w_file (s_w s) j = Some g)).
  { intros j g G. destruct (Nat.eq_dec j i) as [->|N]; [left; split; congruence|right; split; [exact N|]]. rewrite <- O2; assumption. }
  assert (C2 : forall j g, w_file w' j = Some g -> exists g0, w_file (s_w s) j = Some g0 /\ f_iun g0 = f_iun g).
  { intros j g G. destruct (C j g G) as [[-> ->]|[_ H]]; [exists f; auto|exists g; auto]. }
  constructor; cbn [s_w s_fs].
  - rewrite O1. apply (wf_seq _ W).
  - intros j g G. destruct (C2 j g G) as (g0 & G0 & _). apply (wf_rng _ W j g0 G0).
  - intros j g G. destruct (C j g G) as [[_ ->]|[_ H]]; [exact FK|apply (wf_fok _ W j g H)].
  - intros a b g h G H E. destruct (C2 a g G) as (g0 & G0 & E0). destruct (C2 b h H) as (h0 & H0 & E1). apply (wf_iun _ W a b g0 h0 G0 H0). congruence.
  - intros p j P. destruct (wf_open _ W p j P) as (g & G). destruct (Nat.eq_dec j i) as [->|N]; [eauto|]. exists g. rewrite O2; assumption.
  - apply (wf_one _ W).
  - intros j g G. destruct (C2 j g G) as (g0 & G0 & _). apply (wf_named _ W j g0 G0).
  - apply (wf_img _ W).
Qed.

Lemma wf_at s i f : wf s -> w_file (s_w s) i = Some f -> exists p, s_fs s p = Opened i /\ forall q, s_fs s q = Opened i <-> q = p.
Proof.
  intros W F. destruct (wf_named _ W i f F) as (p & P). exists p. split; [exact P|]. intros q. split; [intros Q; apply (wf_one _ W q p i); assumption|intros ->; exact P].
Qed.

(** Records after one open file changed. *)
Lemma sabs_replace s w' i f' q : others (s_w s) w' i -> w_file w' i = Some f' ->
  sabs (mksys w' (s_fs s)) q = match s_fs s q with Opened j => if Nat.eqb j i then abs f' else sabs s q | _ => sabs s q end.
Proof.
  intros [_ O] F'. unfold sabs. cbn [s_fs s_w]. destruct (s_fs s q) as [| |j]; try reflexivity.
  destruct (Nat.eqb_spec j i) as [->|N]; [rewrite F'; reflexivity|]. rewrite O by exact N. reflexivity.
Qed.

Lemma sabs_open s p i f : s_fs s p = Opened i -> w_file (s_w s) i = Some f -> sabs s p = abs f.
Proof. intros P F. unfold sabs. rewrite P, F. reflexivity. Qed.

Lemma sabs_shut s p d : s_fs s p = Shut d -> sabs s p = dabs d.
Proof. intros P. unfold sabs. rewrite P. reflexivity. Qed.

(** A read-only put does nothing. *)
Lemma xdfput_ro junk w iun handle buf c w' b' i f : file_index w iun = Some i -> w_file w i = Some f -> ~ writable f ->
  xdfput junk w iun handle buf = Some (c, w', b') -> c <> 0 /\ w' = w /\ b' = buf.
Proof.
  intros FX F NW. unfold xdfput. destruct (file_index w (b_iun buf)) as [ib|].
  2: { intros H. injection H as <- <- <-. repeat split. discriminate. }
  rewrite FX. destruct (negb _). { intros H. injection H as <- <- <-. repeat split. discriminate. }
  rewrite F. cbn [bind].
  replace ((hget (f_hdr f) H_RWFLG =? RDMODE) || f_ro f) with true. { intros H. injection H as <- <- <-. repeat split. discriminate. }
  symmetry. destruct (Z.eqb_spec (hget (f_hdr f) H_RWFLG) RDMODE); [reflexivity|]. destruct (f_ro f) eqn:R; [reflexivity|].
  exfalso. apply NW. split; assumption.
Qed.

Lemma xdfput_nofile junk w iun handle buf c w' b' : file_index w iun = None -> xdfput junk w iun handle buf = Some (c, w', b') -> c <> 0 /\ w' = w /\ b' = buf.
Proof.
  intros FX. unfold xdfput. destruct (file_index w (b_iun buf)); [rewrite FX|]; intros H; injection H as <- <- <-; repeat split; discriminate.
Qed.

Definition same_recs (s s' : sys) : Prop := forall q k r, sabs s' q k r = sabs s q k r.

(** The keys of a record of a standard file are the words that follow its
    two header words. *)
Lemma std_keyed fk f e0 e1 data addr n : finv f -> f_kp fk = std_kp -> hkeep (f_hdr f) (f_hdr fk) -> length e0 = (2 * f_plen f)%nat -> (2 <= length data)%nat ->
  keyed fk e0 e1 data addr n -> e1 = mk_hd (w_idtyp (nth 0 data 0)) (n / 2) :: w32 addr :: firstn (2 * (f_plen f - 1)) (skipn 2 data).
Proof.
  intros [G I] KP HK L0 LD (ks & em & R & W & ->). rewrite KP in R, W. cbn [kp_read kp_write std_kp] in R, W. pose proof (g_plen _ _ G) as PL.
  assert (NW : std_nw (f_hdr fk) = (2 * (f_plen f - 1))%nat).
  { unfold std_nw. destruct HK as [_ HK]. replace (h_lprm (f_hdr fk)) with (h_lprm (f_hdr f)). 2: { unfold h_lprm. rewrite HK; [reflexivity|]. unfold hkept, H_PRM. lia. }
    rewrite (g_lprm _ _ G). lia. }
  unfold std_read in R. rewrite NW in R. destruct (_ && _) eqn:C in R; [|discriminate].
  assert (KS : ks = firstn (2 * (f_plen f - 1)) (skipn 2 (stamped data addr n))) by congruence. clear R. subst ks.
  apply andb_prop in C. destruct C as [C1 _]. apply Nat.leb_le in C1. rewrite stamped_length in C1.
  unfold std_write in W. rewrite NW in W. destruct (_ && _) in W; [|discriminate].
  set (m := (2 * (f_plen f - 1))%nat) in *. set (z := repeat 0 (MAX_PRIMARY_LNG - _)) in W.
  assert (EM : fst em = firstn 2 e0 ++ firstn m (firstn m (skipn 2 (stamped data addr n)) ++ z) ++ skipn (2 + m) e0).
  { generalize dependent (firstn m (firstn m (skipn 2 (stamped data addr n)) ++ z)). intros x W. generalize dependent (skipn (2 + m) e0). intros y W. injection W as <-. reflexivity. }
  rewrite EM. clear W EM. rewrite (skipn_all2 (n := 2 + m) e0) by (unfold m; lia). rewrite app_nil_r.
  assert (LS : length (firstn m (skipn 2 (stamped data addr n))) = m) by (rewrite firstn_length, skipn_length, stamped_length; lia).
  rewrite firstn_app, LS, Nat.sub_diag, firstn_O, app_nil_r. rewrite (firstn_all2 (n := m) (firstn m _)) by lia.
  destruct e0 as [|a [|b e0]]; cbn [length] in L0; try lia. cbn [firstn app upd]. do 2 f_equal. f_equal.
  unfold stamped. destruct data as [|x [|y data]]; cbn [length] in LD; try lia. reflexivity.
Qed.

(** The effect of a call on the records. *)
Definition effect (s : sys) (o : op) (c : Z) (s' : sys) : Prop :=
  match o with
  | OpCreate _ p _ _ _ _ _ _ =>
    if c =? 0 then forall q k r, sabs s' q k r = if Nat.eqb q p then None else sabs s q k r
    else s' = s
  | OpPut _ iun handle buf =>
    if c =? 0 then exists p i f k r e ws,
      s_fs s p = Opened i /\ file_index (s_w s) iun = Some i /\ w_file (s_w s) i = Some f /\ writable f /\
      (handle <> 0 -> hget (f_hdr f) H_RWFLG <> APPEND /\ hidx (s_w s) (Z.abs handle) = i) /\
      ws = firstn (Z.to_nat (b_nbits buf / 32)) (stamped (b_data buf) (e_addr e) (b_nbits buf / 32)) /\
      ((f_kp f = std_kp -> e = mk_hd (w_idtyp (nth 0 (b_data buf) 0)) (b_nbits buf / 32 / 2) :: w32 (e_addr e) :: firstn (2 * (f_plen f - 1)) (skipn 2 (b_data buf))) /\
       exists fk e0, f_kp fk = f_kp f /\ hkeep (f_hdr f) (f_hdr fk) /\ length e0 = (2 * f_plen f)%nat /\ keyed fk e0 e (b_data buf) (e_addr e) (b_nbits buf / 32)) /\
      (sabs s p k r = None \/ (0 < handle /\ put_tgt handle = Some (k, r) /\ exists e ws0, sabs s p k r = Some (Some (e, ws0)) /\ length ws0 = length ws)) /\
      (forall a b, put_tgt handle = Some (a, b) -> exists x, sabs s p a b = Some (Some x)) /\
      forall q j t, sabs s' q j t = if Nat.eqb q p then (if eq2 j t k r then Some (Some (e, ws)) else if is_tgt (put_tgt handle) j t then Some None else sabs s p j t)
                                    else sabs s q j t
    else same_recs s s'
  | OpDel h =>
    if c =? 0 then exists p f, s_fs s p = Opened (hidx (s_w s) h) /\ w_file (s_w s) (hidx (s_w s) h) = Some f /\ no_del f = false /\
      (exists x, sabs s p (hpage h) (hrec h) = Some (Some x)) /\
      forall q j t, sabs s' q j t = if Nat.eqb q p && eq2 j t (hpage h) (hrec h) then Some None else sabs s q j t
    else s' = s
  | _ => same_recs s s'
  end.
