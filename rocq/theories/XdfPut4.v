(** c_xdfput, complete statement. *)
From Coq Require Import ZArith List Lia Bool.
From Verif Require Import Bits Handles WaFile Xdf XdfLib XdfInv XdfDel XdfPut XdfPut2 XdfPut3.
Import ListNotations.
Open Scope Z_scope.

(** A buffer c_xdfput can write: an even number of words, at least the two
    header words, all in data[], fewer than 2^25, a record type of 1 to 125. *)
Definition buf_ok (b : buffer) : Prop :=
  all_words (b_data b) /\ 2 <= b_nbits b / 32 < 2 ^ 25 /\ b_nbits b / 32 <= Z.of_nat (length (b_data b)) /\
  1 <= w_idtyp (nth 0 (b_data b) 0) <= 125.

(** A handle that does not designate the entry just past the used ones of its
    page. *)
Definition real_handle (f : fte) (h : Z) : Prop :=
  forall p, nth_error (f_pages f) (hpage h) = Some p -> Z.of_nat (hrec h) <> p_nent p.

Definition writable (f : fte) : Prop := hget (f_hdr f) H_RWFLG <> RDMODE /\ f_ro f = false.

Lemma ent_some f k r p e : finv f -> nth_error (f_pages f) k = Some p -> Z.of_nat r < p_nent p -> nth_error (p_ents p) r = Some e -> ent f k r = Some e.
Proof.
  intros G P R E. unfold ent, entry_at. rewrite (nents_nth _ _ _ P), P.
  replace (r <? Z.to_nat (p_nent p))%nat with true by (symmetry; apply Nat.ltb_lt; lia). exact E.
Qed.

Lemma ent_inv f k r e : ent f k r = Some e -> exists p, nth_error (f_pages f) k = Some p /\ Z.of_nat r < p_nent p /\ nth_error (p_ents p) r = Some e.
Proof.
  intros H. apply entry_at_page in H. destruct H as (n & p & N & P & R & E). exists p. split; [exact P|]. split; [|exact E].
  rewrite (nents_nth _ _ _ P) in N. injection N as <-. lia.
Qed.

Lemma live_iff e : entry_ok e -> live e = negb (deleted (e_idtyp e)) /\ e_idtyp e =? 0 = false.
Proof.
  intros ([T|[T|T]] & _ & _).
  - assert (L : live e = true) by (unfold live; apply andb_true_intro; split; apply Z.leb_le; lia).
    destruct (live_facts e L) as [A B]. rewrite L, A, B. auto.
  - unfold live. rewrite T. auto.
  - unfold live. rewrite T. auto.
Qed.

Definition put_tgt (handle : Z) : option (nat * nat) :=
  if handle =? 0 then None else Some (hpage (Z.abs handle), hrec (Z.abs handle)).

Lemma quiet_refl f : finv f -> quiet f f.
Proof. intros G. unfold quiet. split; [exact G|]. split; [apply stat_refl|]. auto 10. Qed.

Lemma xdfdel_hidx_setf w i f' h : hidx (setf w i f') h = hidx w h.
Proof. reflexivity. Qed.

Lemma even64 n : n mod 64 = 0 -> (n / 32) mod 2 = 0.
Proof.
  intros H. apply Z.mod_divide in H; [|lia]. destruct H as [q ->]. replace (q * 64) with ((q * 2) * 32) by lia.
  rewrite Z.div_mul by lia. apply Z.mod_mul. lia.
Qed.

(** What put does after a target, if any, was found to be live. *)
Lemma put_tail_append junk w i f buf handle : w_file w i = Some f -> finv f -> buf_ok buf -> room f (b_nbits buf / 32) ->
  b_nbits buf mod 64 = 0 ->
  writable f -> (handle <> 0 -> hget (f_hdr f) H_RWFLG <> APPEND) ->
  (handle <> 0 -> hidx w (Z.abs handle) = i /\ exists e, ent f (hpage (Z.abs handle)) (hrec (Z.abs handle)) = Some e /\ live e = true) ->
  forall fc, finv fc -> quiet f fc -> f_pages fc = f_pages f -> 
  match (match put_slot junk i fc with
      | None => None
      | Some (inl (c, f2)) => Some (c, setf w i (Some f2), buf)
      | Some (inr f2) =>
        let w2 := setf w i (Some f2) in
        let waddr := f_nxtadr f2 in
        match (if handle =? 0 then Some (0, w2) else xdfdel w2 (Z.abs handle)) with
        | None => None
        | Some (c, w3) =>
          if c <? 0 then Some (c, w3, buf)
          else put_record junk w3 i (negb (handle =? 0)) true waddr (b_nbits buf / 32) buf
        end
      end) with
  | None => ~ kp_fits f (b_data buf)
  | Some (c, w', buf') => others w w' i /\ exists f', w_file w' i = Some f' /\
      ((c <> 0 /\ quiet f f') \/
       (c = 0 /\ exists k r e1 e0, put_effect f f' (put_tgt handle) k r e1 (firstn (Z.to_nat (b_nbits buf / 32)) (b_data buf')) /\
          ent f k r = None /\
          b_data buf' = stamped (b_data buf) (e_addr e1) (b_nbits buf / 32) /\
          exists fk, f_kp fk = f_kp f /\ hkeep (f_hdr f) (f_hdr fk) /\
            length e0 = (2 * f_plen f)%nat /\ keyed fk e0 e1 (b_data buf) (e_addr e1) (b_nbits buf / 32)))
  end.
Proof.
  intros F FI BO RM EV [WR RO] AP TG fc FC QU PGE.
  destruct QU as (_ & ST & EN & DK & LG & HD & LP).
  assert (ROc : f_ro fc = false) by (destruct ST as (_&A&_); congruence).
  assert (PLc : f_plen fc = f_plen f) by (destruct ST as (_&_&_&_&A&_); congruence).
  assert (RMc : room fc 0). { unfold room, fsize in *. rewrite HD, PLc. destruct BO as (_&A&_). lia. }
  pose proof (put_slot_spec junk i fc FC ROc RMc) as PS.
  destruct (put_slot junk i fc) as [[[c f2]|f2]|]; [| |contradiction].
  - destruct PS as [-> Q]. split; [apply others_setf, others_refl|]. exists f2. split; [apply setf_same|]. left. split; [discriminate|].
    destruct Q as (A & B & C & D & E & H & J). unfold quiet. split; [exact A|]. split; [eapply stat_trans; eassumption|].
    split; [intros j s; rewrite C; apply EN|]. repeat split; congruence.
  - destruct PS as (ns2 & k & r & p2 & SL). cbv zeta.
    pose proof (s_inv _ _ _ _ _ _ _ SL) as G2.
    set (nw := b_nbits buf / 32) in *. destruct BO as (AW & NWB & LEN & IDT).
    assert (W2 : w_file (setf w i (Some f2)) i = Some f2) by apply setf_same.
    (* the state before the record is written *)
    assert (PRE : exists w3 g, (if handle =? 0 then Some (0, setf w i (Some f2)) else xdfdel (setf w i (Some f2)) (Z.abs handle)) = Some (0, w3) /\
       others w w3 i /\ w_file w3 i = Some g /\ 
       match put_tgt handle with
       | None => g = f2
       | Some (a, b) => exists pa ea, nth_error (f_pages f2) a = Some pa /\ ent fc a b = Some ea /\ live ea = true /\ g = del_file f2 a b pa ea
       end).
    { unfold put_tgt. destruct (Z.eqb_spec handle 0) as [->|HN].
      - exists (setf w i (Some f2)), f2. split; [reflexivity|]. split; [apply others_setf, others_refl|]. auto.
      - destruct (TG HN) as (HI & e & E & L).
        assert (Ec : ent fc (hpage (Z.abs handle)) (hrec (Z.abs handle)) = Some e) by (unfold ent; rewrite EN; exact E).
        assert (E2 : entry_at ns2 (f_pages f2) (hpage (Z.abs handle)) (hrec (Z.abs handle)) = Some e) by (rewrite (s_ent _ _ _ _ _ _ _ SL); exact Ec).
        destruct (entry_at_page _ _ _ _ _ E2) as (n & pa & N & PA & RN & EA).
        destruct (xdfdel_eff ns2 (setf w i (Some f2)) i f2 (Z.abs handle) pa e) as (w3 & X & O & W3); auto.
        + pose proof (nents_nth _ _ _ PA) as NN. rewrite (s_nents _ _ _ _ _ _ _ SL), upd_nth in NN.
          destruct (Nat.eqb_spec (hpage (Z.abs handle)) k) as [HK|HK]; cbn [andb] in NN.
          * destruct (k <? length ns2)%nat; [injection NN as NN|rewrite NN in N; injection N as N]; [|lia].
            rewrite HK, (s_r _ _ _ _ _ _ _ SL) in N. injection N as N. lia.
          * rewrite N in NN. injection NN as NN. lia.
        + rewrite (stat_rwflg _ _ (s_stat _ _ _ _ _ _ _ SL)), (stat_rwflg _ _ ST). exact WR.
        + rewrite (stat_rwflg _ _ (s_stat _ _ _ _ _ _ _ SL)), (stat_rwflg _ _ ST). auto.
        + destruct (s_stat _ _ _ _ _ _ _ SL) as (_&A&_). congruence.
        + exists w3. eexists. split; [exact X|]. split.
          { destruct O as [O1 O2]. split; [exact O1|]. intros j J. rewrite O2 by exact J. apply setf_other. exact J. }
          split; [exact W3|]. exists pa, e. auto. }
    destruct PRE as (w3 & g & -> & O3 & W3 & TG3). change (0 <? 0) with false. cbv iota.
    assert (GG : ginv ns2 g /\ c_ent (f_cur g) = c_ent (f_cur f2) /\ f_nxtadr g = f_nxtadr f2 /\ f_ro g = f_ro f2 /\ f_disk g = f_disk f2 /\
       f_kp g = f_kp f2 /\ hkeep (f_hdr f2) (f_hdr g) /\ f_plen g = f_plen f2 /\
       hget (f_hdr g) H_FSIZ = hget (f_hdr f2) H_FSIZ /\
       exists pg, nth_error (f_pages g) k = Some pg /\ length (p_ents pg) = length (p_ents p2)).
    { destruct (put_tgt handle) as [[a b]|].
      - destruct TG3 as (pa & ea & PA & EA & LV & ->).
        assert (E2 : entry_at ns2 (f_pages f2) a b = Some ea) by (rewrite (s_ent _ _ _ _ _ _ _ SL); exact EA).
        pose proof (g_hlen16 _ _ G2) as H16.
        split; [apply del_ginv; auto|]. repeat (split; [reflexivity|]). cbn [del_file f_setmod f_sethdr f_setpages f_hdr f_pages f_plen].
        split; [hk|].
        split; [reflexivity|]. split; [hs; reflexivity|].
        rewrite upd_nth. destruct (Nat.eqb_spec k a) as [<-|]; cbn [andb].
        + rewrite (s_p _ _ _ _ _ _ _ SL) in PA. injection PA as <-.
          replace (k <? length (f_pages f2))%nat with true by (symmetry; apply Nat.ltb_lt; apply nth_error_Some; rewrite (s_p _ _ _ _ _ _ _ SL); discriminate).
          eexists. split; [reflexivity|]. cbn [p_setmod p_setent p_ents]. apply upd_length.
        + exists p2. split; [apply (s_p _ _ _ _ _ _ _ SL)|reflexivity].
      - subst g. split; [exact G2|]. repeat (split; [reflexivity|]). split; [apply hkeep_refl|]. repeat (split; [reflexivity|]). exists p2. split; [apply (s_p _ _ _ _ _ _ _ SL)|reflexivity]. }
    destruct GG as (G3 & CE & NX & ROg & DKg & KPg & HKg & PLg & FSg & pg & PG & PGL).
    assert (PL2 : length (p_ents p2) = EPP). { destruct (page_nth_ok _ _ _ _ G2 (s_p _ _ _ _ _ _ _ SL)) as (_&_&A&_). exact A. }
    destruct (nth_error (p_ents pg) r) as [e|] eqn:EE.
    2: { apply nth_error_None in EE. pose proof (s_r256 _ _ _ _ _ _ _ SL). lia. }
    pose proof (g_nxt _ _ G2) as NX2. pose proof (g_size _ _ G2) as SZ2. pose proof (hget_word _ _ H_FSIZ G2) as FW. unfold word_ok in FW.
    pose proof (g_small _ _ G2) as SM.
    assert (ADDR : (f_nxtadr f2 - 1) / 2 + 1 = hget (f_hdr f2) H_FSIZ + 1).
    { rewrite NX2. replace (2 * hget (f_hdr f2) H_FSIZ + 1 - 1) with (hget (f_hdr f2) H_FSIZ * 2) by lia. rewrite Z.div_mul by lia. reflexivity. }
    pose proof (put_record_eff ns2 junk w3 i g k r pg e (negb (handle =? 0)) true (f_nxtadr f2) nw buf W3 G3) as PR.
    rewrite CE, ROg, DKg in PR.
    assert (RO2 : f_ro f2 = false) by (destruct (s_stat _ _ _ _ _ _ _ SL) as (_&A&_); congruence).
    specialize (PR RO2 (s_cur _ _ _ _ _ _ _ SL) PG EE ltac:(lia) ltac:(lia) ltac:(lia) ltac:(lia) AW ltac:(rewrite ADDR; unfold word_ok; lia)).
    destruct (put_record junk w3 i (negb (handle =? 0)) true (f_nxtadr f2) nw buf) as [[[c w'] buf']|].
    2: { intros Q. apply PR. intros hd d0 e0 HK LD LE. pose proof (s_stat _ _ _ _ _ _ _ SL) as (_&_&_&S4&S5&_&S7).
         destruct ST as (_&_&_&T4&T5&_&T7). rewrite KPg, S4, T4. apply Q; [|exact LD|congruence].
         eapply hkeep_trans; [|exact HK]. eapply hkeep_trans; [|apply HKg]. eapply hkeep_trans; [exact T7|exact S7]. }
    destruct PR as (-> & O' & e1 & W' & EF & KY & BD). split.
    { destruct O' as [A B], O3 as [C D]. split; [congruence|]. intros j J. rewrite B, D by exact J. reflexivity. }
    eexists. split; [exact W'|]. right. split; [reflexivity|]. exists k, r, e1, e.
    assert (EA1 : e_addr e1 = (f_nxtadr f2 - 1) / 2 + 1) by (destruct EF as (_&_&_&_&A); exact A).
    rewrite EA1. split; [|split; [rewrite <- (slotted_none _ _ _ _ _ _ _ SL); symmetry; apply EN|split; [exact BD|]]].
    2: { exists g. rewrite KPg. pose proof (s_stat _ _ _ _ _ _ _ SL) as (_&_&_&S4&S5&_&S7).
         destruct ST as (_&_&_&T4&T5&_&T7). split; [congruence|]. 
         split; [|split; [|exact KY]].
         { eapply hkeep_trans; [|apply HKg]. eapply hkeep_trans; [exact T7|exact S7]. }
         assert (length e = (2 * f_plen g)%nat).
         { destruct (page_nth_ok _ _ _ _ G3 PG) as (_&_&_&Q). rewrite Forall_forall in Q. apply Q. eapply nth_error_In; eassumption. }
         congruence. }
    rewrite BD. rewrite <- NX.
    assert (ws_len : Z.of_nat (length (firstn (Z.to_nat nw) (stamped (b_data buf) ((f_nxtadr f2 - 1) / 2 + 1) nw))) = nw).
    { rewrite firstn_length, stamped_length. lia. }
    assert (PEF : put_effect fc (rec_file g k r pg e1 (negb (handle =? 0)) true (f_nxtadr g) nw (firstn (Z.to_nat nw) (stamped (b_data buf) ((f_nxtadr f2 - 1) / 2 + 1) nw)))
       (put_tgt handle) k r e1 (firstn (Z.to_nat nw) (stamped (b_data buf) ((f_nxtadr f2 - 1) / 2 + 1) nw))).
    { eapply put_append_final with (i := i) (f2 := f2) (ns2 := ns2) (p2 := p2) (e := e) (idt := w_idtyp (nth 0 (b_data buf) 0)); eauto.
      - rewrite FSg. rewrite <- ADDR. exact EF.
      - apply even64. exact EV.
      - lia.
      - unfold room, fsize in *. rewrite HD, PLc. exact RM.
      - destruct (b_data buf) as [|d0 dd]; [cbn [length] in LEN; lia|]. unfold stamped. cbn [upd].
        destruct (Z.to_nat nw) eqn:ZN; [lia|]. cbn [firstn nth]. rewrite hd_idtyp. symmetry. apply Z.mod_small. apply w_idtyp_range.
      - rewrite FSg, ADDR. apply firstn2_stamped; [unfold word_ok|..]; lia. }
    rewrite NX in *.
    destruct PEF as [P1 P2 P3 P4 P5 P6 P7 P8 P9 P10 P11 P12 P13 P14].
    assert (ENc : forall j s, ent fc j s = ent f j s) by exact EN.
    constructor; auto.
    + eapply stat_trans; eassumption.
    + intros a b T. destruct (P5 a b T) as (x & X1 & X2). exists x. rewrite <- ENc. auto.
    + intros j s. rewrite <- ENc. apply P6.
    + intros j s x. rewrite <- ENc. intros X D. rewrite (P7 j s x X D). unfold rec_data. rewrite DK. reflexivity.
    + rewrite <- ENc. exact P8.
    + unfold fsize in *. rewrite <- HD, <- PLc. exact P11.
    + intros D. specialize (P12 D). unfold same_below, fsize in *. rewrite <- HD, <- DK. exact P12.
    + assert (FZ : fsize fc = fsize f) by (unfold fsize; rewrite HD; reflexivity). rewrite LG, DK, FZ in P13.
      destruct P13 as (l & L1 & L2 & L3 & L4). exists l. split; [exact L1|]. split; [exact L2|]. split; [|exact L4].
      eapply Forall_impl; [|exact L3]. intros x [X|(a & b & e2 & X1 & X2 & X3)]; [left; rewrite <- FZ; exact X|right; exists a, b, e2; rewrite <- ENc; auto].
    + rewrite <- LP. exact P14.
Qed.

(** Outcome of a put on the file of slot [i]. *)
Definition put_outcome (w w' : world) (i : nat) (f : fte) (handle : Z) (buf buf' : buffer) (c : Z) : Prop :=
  others w w' i /\ exists f', w_file w' i = Some f' /\
      ((c <> 0 /\ quiet f f') \/
       (c = 0 /\ writable f /\ (handle <> 0 -> hget (f_hdr f) H_RWFLG <> APPEND /\ hidx w (Z.abs handle) = i) /\
        exists k r e1 e0, put_effect f f' (put_tgt handle) k r e1 (firstn (Z.to_nat (b_nbits buf / 32)) (b_data buf')) /\
          (ent f k r = None \/ (0 < handle /\ put_tgt handle = Some (k, r) /\ exists e, ent f k r = Some e /\ 2 * e_lng e = b_nbits buf / 32)) /\
          b_data buf' = stamped (b_data buf) (e_addr e1) (b_nbits buf / 32) /\
          exists fk, f_kp fk = f_kp f /\ hkeep (f_hdr f) (f_hdr fk) /\
            length e0 = (2 * f_plen f)%nat /\ keyed fk e0 e1 (b_data buf) (e_addr e1) (b_nbits buf / 32))).

Lemma append_outcome w w' i f handle buf buf' c : writable f -> (handle <> 0 -> hget (f_hdr f) H_RWFLG <> APPEND /\ hidx w (Z.abs handle) = i) ->
  (others w w' i /\ exists f', w_file w' i = Some f' /\
      ((c <> 0 /\ quiet f f') \/
       (c = 0 /\ exists k r e1 e0, put_effect f f' (put_tgt handle) k r e1 (firstn (Z.to_nat (b_nbits buf / 32)) (b_data buf')) /\
          ent f k r = None /\
          b_data buf' = stamped (b_data buf) (e_addr e1) (b_nbits buf / 32) /\
          exists fk, f_kp fk = f_kp f /\ hkeep (f_hdr f) (f_hdr fk) /\
            length e0 = (2 * f_plen f)%nat /\ keyed fk e0 e1 (b_data buf) (e_addr e1) (b_nbits buf / 32)))) ->
  put_outcome w w' i f handle buf buf' c.
Proof.
  intros WB AP (O & f' & W & [Q|(Q & k & r & e1 & e0 & A & B & C)]); (split; [exact O|]); exists f'; (split; [exact W|]); [left; exact Q|].
  right. split; [exact Q|]. split; [exact WB|]. split; [exact AP|]. exists k, r, e1, e0. auto.
Qed.

Lemma put_tail_inplace junk w i f buf handle e : w_file w i = Some f -> finv f -> buf_ok buf ->
  b_nbits buf mod 64 = 0 -> writable f -> hget (f_hdr f) H_RWFLG <> APPEND -> 0 < handle ->
  hidx w handle = i -> ent f (hpage handle) (hrec handle) = Some e -> live e = true -> 2 * e_lng e = b_nbits buf / 32 ->
  forall fc, fc = f_setcur f (mkcur (Some (i, hpage handle)) (Some ((i, hpage handle), hrec handle)) (c_no (f_cur f)) (c_rec (f_cur f))) ->
  match (match xdfdel (setf w i (Some fc)) handle with
        | None => None
        | Some (c, w3) =>
          if c <? 0 then Some (c, w3, buf)
          else put_record junk w3 i true false (2 * (e_addr e - 1) + 1) (b_nbits buf / 32) buf
        end) with
  | None => ~ kp_fits f (b_data buf)
  | Some (c, w', buf') => put_outcome w w' i f handle buf buf' c
  end.
Proof.
  intros F FI BO EV [WR RO] AP HP HI E L NWE fc FC.
  destruct FI as [G IM]. destruct (ent_inv _ _ _ _ E) as (p & P & RN & EE).
  assert (Gc : ginv (nents (f_pages f)) fc) by (subst fc; apply ginv_cur; exact G).
  assert (PGc : f_pages fc = f_pages f) by (subst fc; reflexivity).
  destruct (xdfdel_eff (nents (f_pages f)) (setf w i (Some fc)) i fc handle p e) as (w3 & X & O & W3); try (rewrite PGc); auto; try (subst fc; assumption).
  { apply setf_same. }
  { lia. }
  rewrite X. change (0 <? 0) with false. cbv iota.
  set (g := del_file fc (hpage handle) (hrec handle) p e) in *.
  assert (FIc : finv fc) by (subst fc; split; assumption).
  assert (G3 : ginv (nents (f_pages f)) g) by (apply del_ginv; auto; rewrite PGc; auto).
  set (pg := p_setmod (p_setent p (hrec handle) (upd e 0 (mk_hd 254 (e_lng e)))) true).
  assert (PG : nth_error (f_pages g) (hpage handle) = Some pg).
  { unfold g, del_file. cbn [f_setmod f_sethdr f_setpages f_pages]. apply upd_nth_same. apply nth_error_Some. rewrite PGc. congruence. }
  assert (EG : nth_error (p_ents pg) (hrec handle) = Some (upd e 0 (mk_hd 254 (e_lng e)))).
  { cbn [pg p_setmod p_setent p_ents]. apply upd_nth_same. apply nth_error_Some. congruence. }
  destruct BO as (AW & NWB & LEN & IDT). set (nw := b_nbits buf / 32) in *.
  pose proof (rec_ext_bound _ _ _ _ _ G E) as RB. pose proof (g_size _ _ G) as SZ. fold (fsize f) in SZ.
  pose proof (g_small _ _ G) as SM. fold (fsize f) in SM.
  assert (ADDR : (2 * (e_addr e - 1) + 1 - 1) / 2 + 1 = e_addr e).
  { replace (2 * (e_addr e - 1) + 1 - 1) with ((e_addr e - 1) * 2) by lia. rewrite Z.div_mul by lia. lia. }
  pose proof (put_record_eff (nents (f_pages f)) junk w3 i g (hpage handle) (hrec handle) pg (upd e 0 (mk_hd 254 (e_lng e))) true false (2 * (e_addr e - 1) + 1) nw buf W3 G3) as PR.
  assert (D1 : f_disk g = f_disk f) by (subst fc; reflexivity).
  assert (D2 : f_ro g = false) by (subst fc; exact RO).
  assert (D3 : c_ent (f_cur g) = Some ((i, hpage handle), hrec handle)) by (subst fc; reflexivity).
  specialize (PR D2 D3 PG EG). rewrite D1 in PR.
  specialize (PR ltac:(lia) ltac:(lia) ltac:(lia) ltac:(lia) AW ltac:(rewrite ADDR; unfold word_ok; lia)).
  destruct (put_record junk w3 i true false (2 * (e_addr e - 1) + 1) nw buf) as [[[c w'] buf']|].
  2: { intros Q. apply PR. intros hd d0 e0 HK LD LE. pose proof (g_hlen16 _ _ G) as H16. subst fc. apply Q; [|exact LD|exact LE].
       eapply hkeep_trans; [|exact HK]. cbn [g del_file f_setmod f_sethdr f_setpages f_setcur f_hdr]. hk. }
  destruct PR as (-> & O' & e1 & W' & EF & KY & BD). rewrite ADDR in *. split.
  { destruct O' as [A B], O as [C D]. split; [rewrite A, C; reflexivity|]. intros j J. rewrite B, D by exact J. apply setf_other. exact J. }
  eexists. split; [exact W'|]. right. split; [reflexivity|]. split; [split; assumption|]. split; [intros _; split; [exact AP|rewrite Z.abs_eq by lia; exact HI]|].
  exists (hpage handle), (hrec handle), e1, (upd e 0 (mk_hd 254 (e_lng e))).
  assert (EA1 : e_addr e1 = e_addr e) by (destruct EF as (_&_&_&_&A); exact A). rewrite EA1.
  assert (TGE : put_tgt handle = Some (hpage handle, hrec handle)).
  { unfold put_tgt. rewrite (proj2 (Z.eqb_neq handle 0)) by lia. rewrite Z.abs_eq by lia. reflexivity. }
  split; [|split; [right; split; [exact HP|split; [exact TGE|exists e; auto]]|split; [exact BD|]]].
  2: { exists g. split; [subst fc; reflexivity|]. split.
       { pose proof (g_hlen16 _ _ G). subst fc. cbn [g del_file f_setmod f_sethdr f_setpages f_setcur f_hdr]. hk. }
       split; [|exact KY]. rewrite upd_length. apply (entry_shape _ _ _ _ _ G E). }
  rewrite BD. assert (ws_len : Z.of_nat (length (firstn (Z.to_nat nw) (stamped (b_data buf) (e_addr e) nw))) = nw).
  { rewrite firstn_length, stamped_length. lia. }
  rewrite TGE.
  assert (PEF : put_effect fc (rec_file g (hpage handle) (hrec handle) pg e1 true false (2 * (e_addr e - 1) + 1) nw (firstn (Z.to_nat nw) (stamped (b_data buf) (e_addr e) nw)))
     (Some (hpage handle, hrec handle)) (hpage handle) (hrec handle) e1 (firstn (Z.to_nat nw) (stamped (b_data buf) (e_addr e) nw))).
  { eapply put_inplace_final with (idt := w_idtyp (nth 0 (b_data buf) 0)); eauto.
    - rewrite PGc. exact P.
    - unfold ent. rewrite PGc. exact E.
    - destruct (b_data buf) as [|d0 dd]; [cbn [length] in LEN; lia|]. unfold stamped. cbn [upd].
      destruct (Z.to_nat nw) eqn:ZN; [lia|]. cbn [firstn nth]. rewrite hd_idtyp. symmetry. apply Z.mod_small. apply w_idtyp_range.
    - apply firstn2_stamped; try lia. apply all_words_nth. apply (entry_shape _ _ _ _ _ G E). }
  assert (ENc : forall j s, ent fc j s = ent f j s) by (intros; unfold ent; rewrite PGc; reflexivity).
  assert (DKc : f_disk fc = f_disk f /\ fsize fc = fsize f /\ f_plen fc = f_plen f /\ stat f fc).
  { subst fc. split; [reflexivity|]. split; [reflexivity|]. split; [reflexivity|]. st. apply hkeep_refl. }
  destruct DKc as (DK & FZ & PLc & ST).
  destruct PEF as [P1 P2 P3 P4 P5 P6 P7 P8 P9 P10 P11 P12 P13 P14].
  constructor; auto.
  - eapply stat_trans; eassumption.
  - intros a b T. destruct (P5 a b T) as (x & X1 & X2). exists x. rewrite <- ENc. auto.
  - intros j s. rewrite <- ENc. apply P6.
  - intros j s x. rewrite <- ENc. intros X0 D. rewrite (P7 j s x X0 D). unfold rec_data. rewrite DK. reflexivity.
  - rewrite <- FZ, <- PLc. exact P11.
  - intros D. specialize (P12 D). unfold same_below in *. rewrite <- FZ, <- DK. exact P12.
  - assert (LGc : f_log fc = f_log f) by (subst fc; reflexivity). rewrite LGc, DK, FZ in P13.
    destruct P13 as (l & L1 & L2 & L3 & L4). exists l. split; [exact L1|]. split; [exact L2|]. split; [|exact L4].
    eapply Forall_impl; [|exact L3]. intros x [X0|(a & b & e2 & X1 & X2 & X3)]; [left; rewrite <- FZ; exact X0|right; exists a, b, e2; rewrite <- ENc; auto].
  - rewrite PGc in P14. exact P14.
Qed.

Lemma file_index_some w iun i : file_index w iun = Some i -> exists f, w_file w i = Some f /\ f_iun f = iun /\ (i < MAX_XDF_FILES)%nat.
Proof.
  unfold file_index. intros H. pose proof (find_some _ _ H) as [A B]. apply in_seq in A. destruct (w_file w i) as [f|]; [|discriminate].
  exists f. apply Z.eqb_eq in B. split; [reflexivity|]. split; [exact B|lia].
Qed.

Theorem xdfput_spec junk w iun handle buf i f :
  file_index w iun = Some i -> w_file w i = Some f -> finv f -> buf_ok buf -> room f (b_nbits buf / 32) ->
  (handle <> 0 -> hidx w (Z.abs handle) = i -> real_handle f (Z.abs handle)) ->
  match xdfput junk w iun handle buf with
  | None => ~ kp_fits f (b_data buf)
  | Some (c, w', buf') => put_outcome w w' i f handle buf buf' c
  end.
Proof.
  intros FX F FI BO RM RH. unfold xdfput.
  assert (QR : forall c, c <> 0 -> put_outcome w w i f handle buf buf c).
  { intros c C. split; [apply others_refl|]. exists f. split; [exact F|]. left. split; [exact C|apply quiet_refl; exact FI]. }
  destruct (file_index w (b_iun buf)) as [ib|] eqn:FB.
  2: { split; [apply others_refl|]. exists f. split; [exact F|]. left. split; [discriminate|apply quiet_refl; exact FI]. }
  rewrite FX.
  destruct (Z.eqb_spec (b_nbits buf mod 64) 0) as [EV|]; cbn [negb]; [|apply QR; discriminate].
  rewrite F. cbn [bind].
  destruct (Z.eqb_spec (hget (f_hdr f) H_RWFLG) RDMODE) as [|WR]; cbn [orb]; [apply QR; discriminate|].
  destruct (f_ro f) eqn:RO; [apply QR; discriminate|].
  assert (WB : writable f) by (split; assumption).
  destruct (Z.eqb_spec handle 0) as [->|HN]; cbn [negb andb].
  - (* append *)
    change (0 <? 0) with false.
    pose proof (put_tail_append junk w i f buf 0 F FI BO RM EV WB ltac:(congruence) ltac:(congruence) f FI (quiet_refl f FI) eq_refl) as PT.
    cbv zeta in PT. change (0 =? 0) with true in PT. cbn [negb] in PT.
    destruct (put_slot junk i f) as [[[c f2]|f2]|]; [| |exact PT].
    + apply append_outcome; [exact WB|congruence|exact PT].
    + change (0 <? 0) with false in PT. cbv iota in PT. destruct (put_record junk (setf w i (Some f2)) i false true (f_nxtadr f2) (b_nbits buf / 32) buf) as [[[c w'] buf']|]; [|exact PT].
      apply append_outcome; [exact WB|congruence|exact PT].
  - destruct (Z.eqb_spec (hget (f_hdr f) H_RWFLG) APPEND) as [|AP]; [apply QR; discriminate|].
    set (h := Z.abs handle) in *.
    unfold put_target. fold h.
    destruct (Nat.eqb_spec (hidx w h) i) as [HI|]; cbn [negb].
    2: { split; [apply others_setf, others_refl|]. exists f. split; [apply setf_same|]. left. split; [discriminate|apply quiet_refl; exact FI]. }
    destruct (file_index_some _ _ _ FB) as (fb & FBB & _). rewrite FBB. cbn [bind].
    destruct (negb (Nat.eqb i ib) && _).
    { split; [apply others_setf, others_refl|]. exists f. split; [apply setf_same|]. left. split; [discriminate|apply quiet_refl; exact FI]. }
    assert (G : ginv (nents (f_pages f)) f) by apply FI.
    rewrite (locate_own (nents (f_pages f))) by exact G.
    destruct (Nat.ltb_spec (hpage h) (length (f_pages f))) as [PN|PN].
    2: { rewrite (g_link _ _ G). change (-1 =? -1) with true. cbv iota.
         split; [apply others_setf, others_refl|]. exists f. split; [apply setf_same|]. left. split; [discriminate|apply quiet_refl; exact FI]. }
    destruct (nth_error (f_pages f) (hpage h)) as [p|] eqn:P.
    2: { apply nth_error_None in P. lia. }
    rewrite (entry_of_own _ _ _ _ _ _ F P).
    destruct (Z.ltb_spec (p_nent p) (Z.of_nat (hrec h))) as [RN|RN].
    { split; [apply others_setf, others_refl|]. eexists. split; [apply setf_same|]. left. split; [discriminate|apply quiet_cur; exact FI]. }
    destruct (nth_error (p_ents p) (hrec h)) as [e|] eqn:E.
    2: { apply nth_error_None in E. destruct (page_nth_ok _ _ _ _ G P) as (_ & _ & PE & _). pose proof (nent_bound _ _ _ G P). unfold EPP in PE.
         pose proof (RH HN HI p P). lia. }
    assert (RN2 : Z.of_nat (hrec h) < p_nent p). { pose proof (RH HN HI p P). lia. }
    pose proof (ent_some _ _ _ _ _ FI P RN2 E) as EN.
    pose proof (g_ents _ _ G _ _ _ EN) as EOK. destruct (live_iff e EOK) as [LV Z0]. rewrite Z0.
    destruct (deleted (e_idtyp e)) eqn:DE.
    { split; [apply others_setf, others_refl|]. eexists. split; [apply setf_same|]. left. split; [discriminate|apply quiet_cur; exact FI]. }
    cbn [negb] in LV.
    set (fc := f_setcur f (mkcur (Some (i, hpage h)) (Some ((i, hpage h), hrec h)) (c_no (f_cur f)) (c_rec (f_cur f)))).
    assert (FIc : finv fc) by (apply quiet_cur; exact FI).
    assert (APP : handle <> 0 -> hget (f_hdr f) H_RWFLG <> APPEND) by auto.
    assert (TGT : handle <> 0 -> hidx w (Z.abs handle) = i /\ exists e, ent f (hpage (Z.abs handle)) (hrec (Z.abs handle)) = Some e /\ live e = true) by (intros _; eauto).
    pose proof (put_tail_append junk w i f buf handle F FI BO RM EV WB APP TGT fc FIc (quiet_cur f _ FI) eq_refl) as PT. fold h in PT.
    cbv zeta in PT. rewrite (proj2 (Z.eqb_neq handle 0) HN) in PT. cbn [negb] in PT.
    assert (APPCASE : match match put_slot junk i fc with
            | Some (inl (c, f2)) => Some (c, setf w i (Some f2), buf)
            | Some (inr f2) => match xdfdel (setf w i (Some f2)) h with
                | Some (c, w3) => if c <? 0 then Some (c, w3, buf) else put_record junk w3 i true true (f_nxtadr f2) (b_nbits buf / 32) buf
                | None => None end
            | None => None end with
          | Some (c, w', buf') => put_outcome w w' i f handle buf buf' c | None => ~ kp_fits f (b_data buf) end).
    { destruct (put_slot junk i fc) as [[[c f2]|f2]|]; [| |exact PT].
      - apply append_outcome; [exact WB|auto|exact PT].
      - destruct (xdfdel (setf w i (Some f2)) h) as [[c w3]|]; [|exact PT].
        destruct (if c <? 0 then _ else _) as [[[c' w'] buf']|]; [|exact PT].
        apply append_outcome; [exact WB|auto|exact PT]. }
    destruct (Z.eqb_spec (2 * e_lng e) (b_nbits buf / 32)) as [LE|LE]; [|exact APPCASE].
    destruct (Z.ltb_spec 0 handle) as [HP|HP].
    + assert (HH : h = handle) by (unfold h; lia). rewrite HH in *.
      apply (put_tail_inplace junk w i f buf handle e F FI BO EV WB AP HP HI EN LV LE fc). unfold fc. rewrite HH. reflexivity.
    + exact APPCASE.
Qed.
