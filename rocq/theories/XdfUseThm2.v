(** Proofs about c_xdfuse: opening, closing, and the whole call. *)
From Coq Require Import ZArith List Lia Bool Sorted Permutation.
From Verif Require Import Bits Handles HandlesFacts WaFile Xdf XdfLib XdfInv XdfDel XdfPut XdfPut2 XdfPut3 XdfPut4 XdfOpen XdfClose XdfClose2 XdfReopen XdfCreate XdfSearch XdfAbs XdfCkpt XdfLoc XdfHist XdfSys XdfSys2 XdfSpec XdfThm XdfThm2 XdfEnum XdfSta XdfCrash XdfThm3 XdfUse XdfUseSpec XdfUseThm.
Import ListNotations.
Open Scope Z_scope.

Lemma file_index_new s p i f u : w_file (s_w s) i = None -> u <> f_iun f ->
  file_index (s_w (mksys (setf (s_w s) i (Some f)) (setfs (s_fs s) p (Opened i)))) u = file_index (s_w s) u.
Proof.
  intros N U. unfold file_index. cbn [s_w]. generalize (seq 0 MAX_XDF_FILES) as l. induction l as [|a l IH]; [reflexivity|]. cbn [find].
  destruct (Nat.eq_dec a i) as [->|NE].
  - rewrite setf_same, N. replace (f_iun f =? u) with false by (symmetry; apply Z.eqb_neq; congruence). exact IH.
  - rewrite setf_other by exact NE. rewrite IH. reflexivity.
Qed.

(** [s1] is [s] with file [p], unit [u], open in slot [i] as [f]. *)
Record opens (s s1 : sys) (p : nat) (u : Z) (i : nat) (f : fte) : Prop := {
  on_wf : wf s1;
  on_hist : exists l, hist any s l s1;
  on_same : same_recs s s1;
  on_fs : forall q, q <> p -> s_fs s1 q = s_fs s q;
  on_p : s_fs s1 p = Opened i;
  on_iun : f_iun f = u;
  on_i : w_file (s_w s1) i = Some f;
  on_other : forall k g, w_file (s_w s) k = Some g -> w_file (s_w s1) k = Some g;
  on_index : forall v, v <> u -> file_index (s_w s1) v = file_index (s_w s) v
}.

Lemma opens_refl s p u i f : wf s -> s_fs s p = Opened i -> w_file (s_w s) i = Some f -> f_iun f = u -> opens s s p u i f.
Proof. intros. constructor; auto. - exists []. constructor. - apply same_recs_refl. Qed.

Lemma opens_new s o c p u i f : wf s -> ok_op s o -> step o s = Some (c, mksys (setf (s_w s) i (Some f)) (setfs (s_fs s) p (Opened i))) ->
  w_file (s_w s) i = None -> f_iun f = u -> same_recs s (mksys (setf (s_w s) i (Some f)) (setfs (s_fs s) p (Opened i))) ->
  opens s (mksys (setf (s_w s) i (Some f)) (setfs (s_fs s) p (Opened i))) p u i f.
Proof.
  intros W OK ST N U SR. constructor; auto.
  - apply (step_spec s o c _ W OK ST).
  - exists [(o, c)]. econstructor; [exact OK|exact Logic.I|exact ST|constructor].
  - intros q Q. cbn [s_fs]. unfold setfs. replace (Nat.eqb q p) with false by (symmetry; apply Nat.eqb_neq; exact Q). reflexivity.
  - cbn [s_fs]. unfold setfs. rewrite Nat.eqb_refl. reflexivity.
  - cbn [s_w]. apply setf_same.
  - intros k g K. cbn [s_w]. rewrite setf_other by congruence. exact K.
  - intros v V. apply file_index_new; [exact N|congruence].
Qed.

Lemma opens_open s junk p iun ro std kp mode c s1 d : wf s -> ok_op s (OpOpen junk p iun ro std kp mode) -> s_fs s p = Shut d ->
  step (OpOpen junk p iun ro std kp mode) s = Some (c, s1) -> 0 <= c ->
  exists i f, opens s s1 p iun i f /\ f_disk f = d /\ f_ro f = ro /\ f_kp f = kp /\ hget (f_hdr f) H_RWFLG = mode.
Proof.
  intros W OK P ST C. pose proof (step_spec _ _ _ _ W OK ST) as (W1 & SR). cbn [effect] in SR. pose proof ST as ST0. pose proof OK as (KP & MO & SG).
  cbn [step] in ST. rewrite P in ST. destruct (open_slot (s_w s) iun) as [[e|i]|] eqn:OS; [| |discriminate]; cbn [bind] in ST.
  - injection ST as <- <-. pose proof (open_slot_err _ _ _ OS). lia.
  - destruct (open_slot_spec _ _ _ OS) as (N & R & FX & _). destruct (wf_img _ W p d P) as (A & f0 & CL & D & AB). pose proof CL as (C1 & C2 & C3 & C4 & C5).
    destruct (xdfopn_spec junk iun ro std kp f0 mode C1 C2 C3 C4 C5) as (f & X & OP & FI & _); auto.
    { intros T. rewrite <- (clean_word3 f0 CL), D. apply (SG T d P). }
    pose proof OP as (O1 & O2 & O3 & O4 & O5 & O6 & O7 & O8 & O9 & _). pose proof (g_hlen16 _ _ (proj1 C1)) as H16.
    rewrite D in X. rewrite X in ST. cbn [bind] in ST. injection ST as <- <-. exists i, f.
    split; [apply (opens_new s _ _ p iun i f W OK ST0 N O1 SR)|]. split; [congruence|]. split; [exact O2|]. split; [exact O4|].
    rewrite O9, hget_hset by (unfold H_RWFLG; lia). apply w32_id. unfold word_ok. lia.
Qed.

Lemma step_create_absent s junk p iun std kp pri aux sign : s_fs s p = Absent -> exists d, step (OpCreate junk p iun std kp pri aux sign) s =
  bind (open_slot (s_w s) iun) (fun r => match r with Err c => Some (c, s) | Go i =>
    bind (xdfopn_create junk iun false std kp d pri aux sign) (fun cf => let (c, f) := cf in Some (c, mksys (setf (s_w s) i (Some f)) (setfs (s_fs s) p (Opened i)))) end).
Proof. intros P. exists []. unfold step. rewrite P. reflexivity. Qed.

Lemma opens_create s junk p iun std kp pri aux sign c s1 : wf s -> keys_ok pri aux -> kp_ok kp -> s_fs s p = Absent ->
  step (OpCreate junk p iun std kp pri aux sign) s = Some (c, s1) -> 0 <= c ->
  exists i f, opens s s1 p iun i f /\ writable f /\ f_kp f = kp /\ fsize f <= 416 + page_wlen (f_plen f).
Proof.
  intros W KO KP P ST C. assert (OK : ok_op s (OpCreate junk p iun std kp pri aux sign)) by (split; assumption).
  pose proof (step_spec _ _ _ _ W OK ST) as (W1 & EF). cbn [effect] in EF. pose proof ST as ST0.
  destruct (step_create_absent s junk p iun std kp pri aux sign P) as (d & EQ). rewrite EQ in ST. clear EQ. destruct (open_slot (s_w s) iun) as [[e|i]|] eqn:OS; [| |discriminate]; cbn [bind] in ST.
  - injection ST as <- <-. pose proof (open_slot_err _ _ _ OS). lia.
  - destruct (open_slot_spec _ _ _ OS) as (N & R & FX & _).
    destruct (create_spec junk iun std kp d pri aux sign KO KP) as (f & X & FI & WB & RW & W2 & W3 & IU & RO & SD & KPE & PL & IL & LA & NE & T & CM & SM & SZ).
    rewrite X in ST. cbn [bind] in ST. assert (c = 0) as -> by congruence. assert (E1 : s1 = mksys (setf (s_w s) i (Some f)) (setfs (s_fs s) p (Opened i))) by congruence. clear ST X. subst s1.
    rewrite Z.eqb_refl in EF. exists i, f. split; [|split; [exact WB|split; [exact KPE|unfold fsize; exact SZ]]]. apply (opens_new s _ _ p iun i f W OK ST0 N IU).
    intros q k r. rewrite EF. destruct (Nat.eqb_spec q p) as [->|]; [|reflexivity]. unfold sabs. rewrite P. reflexivity.
Qed.

Lemma use_dest_spec junk fn src dst us ud n s h s1 : wf s -> fn dst = Some ud -> is_dest s dst (u_path ud) (u_ro ud) (u_std ud) n ->
  (forall h, sta_hdr s src (u_path us) = Some (Go h) -> keys_ok (pri_keys h) (aux_keys h)) -> kp_ok (u_kp ud) ->
  use_dest junk fn 1 src dst us ud s = Some (Go h, s1) ->
  exists j g, opens s s1 (u_path ud) dst j g /\ writable g /\ fsize g <= n + 416 + page_wlen (f_plen g).
Proof.
  intros W FN DD KO KP. unfold use_dest. destruct DD as [(j & g & P & F & U & WB & NN)|[(d & P & FX & RO & NN & SG)|(P & FX & NN)]].
  - rewrite <- U at 1. rewrite (file_index_of _ _ _ W F). destruct (sta_hdr s dst (u_path ud)) as [[e|h0]|]; cbn [bind]; try discriminate. intros H. assert (s1 = s) as -> by congruence.
    exists j, g. split; [apply opens_refl; assumption|]. split; [exact WB|]. pose proof (g_size _ _ (proj1 (fo_inv _ (wf_fok _ W j g F)))) as SZ. fold (fsize g) in SZ.
    pose proof (page_wlen_pos (f_plen g)). lia.
  - rewrite FX, P. destruct (sta_hdr s dst (u_path ud)) as [[e|h0]|]; cbn [bind]; try discriminate.
    destruct (step (OpOpen junk (u_path ud) dst (u_ro ud) (u_std ud) (u_kp ud) APPEND) s) as [[c s2]|] eqn:ST; cbn [bind]; [|discriminate].
    destruct (Z.ltb_spec c 0) as [|C]; [discriminate|]. intros H. assert (s2 = s1) as -> by congruence.
    assert (OK : ok_op s (OpOpen junk (u_path ud) dst (u_ro ud) (u_std ud) (u_kp ud) APPEND)).
    { split; [exact KP|]. split; [unfold APPEND; lia|]. intros T d' P'. assert (d' = d) as -> by congruence. apply SG. exact T. }
    destruct (opens_open _ _ _ _ _ _ _ _ _ _ _ W OK P ST C) as (j & g & ON & D & ROg & KPg & RW). exists j, g. split; [exact ON|].
    split; [split; [rewrite RW; discriminate|congruence]|]. pose proof (g_size _ _ (proj1 (fo_inv _ (wf_fok _ (on_wf _ _ _ _ _ _ ON) j g (on_i _ _ _ _ _ _ ON))))) as SZ. fold (fsize g) in SZ.
    rewrite D in SZ. pose proof (page_wlen_pos (f_plen g)). lia.
  - rewrite FX, P. destruct (sta_hdr s src (u_path us)) as [[e|h0]|]; cbn [bind]; try discriminate.
    change (Z.to_nat 1) with 1%nat. cbn [use_create]. rewrite FN.
    destruct (step (OpCreate junk (u_path ud) dst (u_std ud) (u_kp ud) (pri_keys h0) (aux_keys h0) (hget h0 3)) s) as [[c s2]|] eqn:ST; cbn [bind]; [|discriminate].
    destruct (Z.ltb_spec c 0) as [NC|C]; cbn [bind].
    + rewrite (proj2 (Z.ltb_lt _ _)) by lia. discriminate.
    + cbn [Z.ltb Z.compare]. intros H. assert (s2 = s1) as -> by congruence.
      destruct (opens_create _ _ _ _ _ _ _ _ _ _ _ W (KO h0 eq_refl) KP P ST C) as (j & g & ON & WB & KPg & SZ). exists j, g. split; [exact ON|]. split; [exact WB|]. lia.
Qed.

Lemma use_src_spec junk src us d s close c s1 : wf s -> is_source s src (u_path us) d -> kp_ok (u_kp us) ->
  (u_std us = true -> nth 3 d 0 = STDR \/ nth 3 d 0 = STDS) -> use_src junk src us s = Some (close, c, s1) -> 0 <= c ->
  exists i f, opens s s1 (u_path us) src i f /\ f_disk f = d /\ ~ writable f.
Proof.
  intros W [(P & FX)|(i & f & P & F & U & NW & D)] KP SG; unfold use_src.
  - rewrite FX. destruct (step (OpOpen junk (u_path us) src (u_ro us) (u_std us) (u_kp us) RDMODE) s) as [[c0 s0]|] eqn:ST; cbn [bind]; [|discriminate].
    intros H C. assert (c0 = c) as -> by congruence. assert (s0 = s1) as -> by congruence.
    assert (OK : ok_op s (OpOpen junk (u_path us) src (u_ro us) (u_std us) (u_kp us) RDMODE)).
    { split; [exact KP|]. split; [unfold RDMODE; lia|]. intros T d' P'. assert (d' = d) as -> by congruence. apply SG. exact T. }
    destruct (opens_open _ _ _ _ _ _ _ _ _ _ _ W OK P ST C) as (i & f & ON & D & ROg & KPg & RW). exists i, f. split; [exact ON|]. split; [exact D|].
    intros [X _]. congruence.
  - rewrite <- U at 1. rewrite (file_index_of _ _ _ W F). intros H _. assert (s1 = s) as -> by congruence. exists i, f. split; [apply opens_refl; assumption|]. auto.
Qed.

Lemma order_unique f L M A : finv f -> (forall k r, A k r = abs f k r) -> chain f 0 L -> in_file_order A M -> L = M.
Proof.
  intros FI AB C O. pose proof (chain_order f L A FI AB C) as OL. apply (sorted_unique (fun a b => start_of f a < start_of f b)).
  - intros x y. lia.
  - apply (chain_sorted f 0 L FI C).
  - destruct O as (IN & S). assert (INC : forall x, In x M -> exists e, ent f (fst x) (snd x) = Some e /\ exists ws, A (fst x) (snd x) = Some (Some (e, ws))).
    { intros [k r] X. apply IN in X. destruct X as ([e ws] & X). cbn [fst snd]. exists e. pose proof X as Y. rewrite AB in Y. apply abs_live in Y. split; [apply Y|]. exists ws. exact X. }
    clear IN. induction S as [|x M S IH F]; constructor.
    + apply IH. intros y Y. apply INC. right. exact Y.
    + rewrite Forall_forall in *. intros y Y. specialize (F y Y). destruct (INC x (or_introl eq_refl)) as (e & E & ws & X). destruct (INC y (or_intror Y)) as (e' & E' & ws' & X').
      unfold start_of. rewrite E, E'. specialize (F e ws e' ws' X X'). lia.
  - intros [k r]. rewrite (proj1 OL k r), (proj1 O k r). reflexivity.
Qed.

Lemma source_clean s i f d : wf s -> w_file (s_w s) i = Some f -> ~ writable f -> f_disk f = d -> whole d ->
  exists f0, clean f0 /\ f_disk f0 = d /\ dsize d = fsize f0 /\ all_words d /\ forall k r, abs f0 k r = abs f k r.
Proof.
  intros W F NW D (AW & SZ). destruct (fo_ro _ (wf_fok _ W i f F) NW) as (_ & f0 & CL & D0 & AB). exists f0. split; [exact CL|]. split; [congruence|].
  split; [|split; [exact AW|exact AB]]. unfold fsize, hget. destruct CL as ((G & _) & _ & H & _). rewrite <- H.
  pose proof (g_hlen16 _ _ G) as H16. rewrite range_0. change H_FSIZ with 4%nat. rewrite nth_firstn_d by lia. rewrite D0, D. exact SZ.
Qed.

Lemma use_end_spec junk src close c s i f c' s' : wf s -> file_index (s_w s) src = Some i -> w_file (s_w s) i = Some f -> use_end junk src close c s = Some (c', s') ->
  c' = c /\ wf s' /\ same_recs s s' /\ (exists l, hist any s l s') /\ forall q j, j <> i -> s_fs s q = Opened j -> s_fs s' q = Opened j /\ w_file (s_w s') j = w_file (s_w s) j.
Proof.
  intros W FX F. unfold use_end. destruct close.
  - destruct (step (OpClose junk src) s) as [[c0 s0]|] eqn:ST; cbn [bind]; [|discriminate]. intros H. assert (c' = c) as -> by congruence. assert (s0 = s') as -> by congruence.
    split; [reflexivity|]. pose proof (step_spec s (OpClose junk src) c0 s' W Logic.I ST) as (W' & SR). split; [exact W'|]. split; [exact SR|].
    split; [exists [(OpClose junk src, c0)]; econstructor; [exact Logic.I|exact Logic.I|exact ST|constructor]|].
    intros q j J Q. cbn [step] in ST. rewrite FX, F in ST. cbn [bind] in ST. destruct (xdfcls junk false f) as [f'|]; cbn [bind] in ST; [|discriminate].
    injection ST as _ <-. cbn [s_fs s_w]. rewrite Q. replace (Nat.eqb j i) with false by (symmetry; apply Nat.eqb_neq; exact J). split; [reflexivity|].
    apply setf_other. exact J.
  - intros H. assert (c' = c) as -> by congruence. assert (s' = s) as -> by congruence. split; [reflexivity|]. split; [exact W|]. split; [apply same_recs_refl|].
    split; [exists []; constructor|]. intros. auto.
Qed.

Lemma page_wlen_16 f : finv f -> page_wlen (f_plen f) <= 8200.
Proof. intros [G _]. pose proof (g_plen _ _ G). unfold page_wlen. change EPP with 256%nat in *. lia. Qed.

(** The whole call. *)
Lemma use_spec s junk fn src dst us ud d n L fuel c s' : wf s -> fn src = Some us -> fn dst = Some ud -> u_path us <> u_path ud ->
  kp_ok (u_kp us) -> kp_ok (u_kp ud) -> is_source s src (u_path us) d -> is_dest s dst (u_path ud) (u_ro ud) (u_std ud) n ->
  (u_std us = true -> nth 3 d 0 = STDR \/ nth 3 d 0 = STDS) -> (forall h, sta_hdr s src (u_path us) = Some (Go h) -> keys_ok (pri_keys h) (aux_keys h)) ->
  whole d -> in_file_order (sabs s (u_path us)) L -> n + dsize d + (Z.of_nat (length L) + 2) * 8200 + 417 < 2 ^ 31 ->
  xdfuse fuel junk fn 1 src dst s = Some (c, s') -> 0 <= c ->
  c = 0 /\ (exists l, hist any s l s') /\ wf s' /\ (forall q k r, q <> u_path ud -> sabs s' q k r = sabs s q k r) /\
  exists j g, s_fs s' (u_path ud) = Opened j /\ w_file (s_w s') j = Some g /\ f_iun g = dst /\
    ((length (f_pages g) < MAX_DIR_PAGES)%nat -> adds (sabs s (u_path us)) (sabs s (u_path ud)) (sabs s' (u_path ud)) g L).
Proof.
  intros W FS FD PP KS KD SR DR SG KO WH OL BG. unfold xdfuse. rewrite FS, FD.
  assert (SD : src <> dst) by congruence.
  destruct (use_dest junk fn 1 src dst us ud s) as [[[e|h] s1]|] eqn:UD; cbn [bind]; try discriminate.
  - (* errors of the first part *)
    intros H C. exfalso. assert (e = c) as -> by congruence. revert UD. unfold use_dest.
    assert (SE : forall iun p x, sta_hdr s iun p = Some (Err x) -> x < 0).
    { intros iun p x. unfold sta_hdr. destruct (file_index (s_w s) iun); [destruct (w_file (s_w s) n0); cbn [bind]; discriminate|]. destruct (s_fs s p); try discriminate.
      destruct (waread d0 1 4) as [r0|]; cbn [bind]; [|discriminate]. destruct (negb _); [intros X; assert (x = ERR_NOT_XDF) as -> by congruence; reflexivity|].
      destruct (waread d0 1 _); cbn [bind]; discriminate. }
    destruct (file_index (s_w s) dst).
    + destruct (sta_hdr s dst (u_path ud)) as [[x|x]|] eqn:E; cbn [bind]; try discriminate. intros X. assert (x = c) as -> by congruence. apply SE in E. lia.
    + destruct (s_fs s (u_path ud)); try discriminate.
      * destruct (sta_hdr s src (u_path us)) as [[x|x]|] eqn:E; cbn [bind]; try discriminate. { intros X. assert (x = c) as -> by congruence. apply SE in E. lia. }
        destruct (use_create (Z.to_nat 1) junk fn dst x s) as [[c0 s0]|]; cbn [bind]; [|discriminate]. destruct (Z.ltb_spec c0 0); [|discriminate]. intros X. assert (c0 = c) as -> by congruence. lia.
      * destruct (sta_hdr s dst (u_path ud)) as [[x|x]|] eqn:E; cbn [bind]; try discriminate. { intros X. assert (x = c) as -> by congruence. apply SE in E. lia. }
        destruct (step _ s) as [[c0 s0]|]; cbn [bind]; [|discriminate]. destruct (Z.ltb_spec c0 0); [|discriminate]. intros X. assert (c0 = c) as -> by congruence. lia.
  - destruct (use_dest_spec junk fn src dst us ud n s h s1 W FD DR KO KD UD) as (j & g & OD & WB & SZ).
    assert (SR1 : is_source s1 src (u_path us) d).
    { destruct SR as [(P & FX)|(i & f & P & F & R)].
      - left. split; [rewrite (on_fs _ _ _ _ _ _ OD) by exact PP; exact P|rewrite (on_index _ _ _ _ _ _ OD) by exact SD; exact FX].
      - right. exists i, f. split; [rewrite (on_fs _ _ _ _ _ _ OD) by exact PP; exact P|]. split; [apply (on_other _ _ _ _ _ _ OD); exact F|exact R]. }
    destruct (use_src junk src us s1) as [[[close c2] s2]|] eqn:US; cbn [bind]; [|discriminate].
    destruct (Z.ltb_spec c2 0) as [C2|C2]. { intros H C. assert (c2 = c) as -> by congruence. lia. }
    destruct (use_src_spec junk src us d s1 close c2 s2 (on_wf _ _ _ _ _ _ OD) SR1 KS SG US C2) as (i & fs & OS & DS & NW).
    pose proof (on_wf _ _ _ _ _ _ OS) as W2. pose proof (on_i _ _ _ _ _ _ OS) as F2.
    assert (FX2 : file_index (s_w s2) src = Some i) by (rewrite <- (on_iun _ _ _ _ _ _ OS); apply (file_index_of s2 i fs W2 F2)).
    assert (G2 : w_file (s_w s2) j = Some g) by (apply (on_other _ _ _ _ _ _ OS), (on_i _ _ _ _ _ _ OD)).
    assert (FD2 : file_index (s_w s2) dst = Some j) by (rewrite <- (on_iun _ _ _ _ _ _ OD); apply (file_index_of s2 j g W2 G2)).
    assert (P2 : s_fs s2 (u_path ud) = Opened j) by (rewrite (on_fs _ _ _ _ _ _ OS) by congruence; apply (on_p _ _ _ _ _ _ OD)).
    assert (IJ : i <> j) by (intros ->; pose proof (on_iun _ _ _ _ _ _ OS); pose proof (on_iun _ _ _ _ _ _ OD); congruence).
    assert (SR2 : same_recs s s2) by (intros q k r; rewrite (on_same _ _ _ _ _ _ OS), (on_same _ _ _ _ _ _ OD); reflexivity).
    unfold sta_hdr at 1. rewrite FX2, F2. cbn [bind].
    destruct (negb (compatible h (f_hdr fs))) eqn:CP.
    { intros H C. destruct (use_end_spec _ _ _ _ _ _ _ _ _ W2 FX2 F2 H) as (-> & _). unfold ERR_NOT_COMP in C. lia. }
    rewrite ?FX2. cbn [bind]. rewrite ?F2. cbn [bind]. rewrite DS. destruct (source_clean s2 i fs d W2 F2 NW DS WH) as (f0 & CL & D0 & SZ0 & AW & AB).
    assert (POS : 0 < dsize d). { rewrite SZ0. pose proof (g_in _ _ (proj1 (proj1 CL)) OHdr 0 (Z.of_nat (length (f_hdr f0))) eq_refl) as IN. fold (fsize f0) in IN. lia. }
    rewrite (proj2 (Z.ltb_lt _ _) POS). destruct (chain_all f0 (proj1 CL)) as (L0 & CH).
    assert (AA : forall k r, sabs s (u_path us) k r = abs f0 k r).
    { intros k r. rewrite AB, <- SR2. rewrite (sabs_open s2 (u_path us) i fs (on_p _ _ _ _ _ _ OS) F2). reflexivity. }
    assert (L0 = L) as -> by (apply (order_unique f0 L0 L _ (proj1 CL) AA CH OL)).
    pose proof (page_wlen_16 g (fo_inv _ (wf_fok _ W2 j g G2))) as PW.
    assert (DF : f_disk fs = f_disk f0) by congruence. assert (SZ1 : dsize (f_disk f0) = fsize f0) by congruence. assert (AW1 : all_words (f_disk f0)) by (rewrite D0; exact AW).
    assert (BG2 : fsize g + (fsize f0 - 0) + (Z.of_nat (length L) + 1) * page_wlen (f_plen g) + 1 < 2 ^ 31) by nia.
    pose proof (loop_spec f0 junk 1 src dst i fs j CL SZ1 AW1 DF IJ ltac:(lia) 0 L CH fuel 2505 0 s2 g ltac:(lia) W2 FX2 F2 FD2 G2 WB ltac:(lia) BG2) as LP.
    rewrite SZ0. change (0 + 1) with 1 in LP. destruct (use_loop fuel junk 1 (fsize f0) src dst 2505 1 0 s2) as [s3|]; cbn [bind]; [|discriminate].
    destruct LP as (W3 & FS3 & O3 & g3 & l3 & G3 & H3 & ST3 & NP3 & EF3).
    assert (F3 : w_file (s_w s3) i = Some fs) by (rewrite O3 by exact IJ; exact F2).
    assert (FX3 : file_index (s_w s3) src = Some i) by (rewrite <- (on_iun _ _ _ _ _ _ OS); apply (file_index_of s3 i fs W3 F3)).
    intros H _. destruct (use_end_spec _ _ _ _ _ _ _ _ _ W3 FX3 F3 H) as (-> & W' & SR' & (l4 & H4) & KEEP). split; [reflexivity|].
    destruct (on_hist _ _ _ _ _ _ OD) as (l1 & H1). destruct (on_hist _ _ _ _ _ _ OS) as (l2 & H2).
    split. { eexists. eapply hist_app; [exact H1|]. eapply hist_app; [exact H2|]. eapply hist_app; [exact H3|exact H4]. }
    split; [exact W'|].
    assert (P3 : s_fs s3 (u_path ud) = Opened j) by (rewrite FS3; exact P2).
    destruct (KEEP (u_path ud) j ltac:(congruence) P3) as (P' & G'). split.
    { intros q k r Q. rewrite SR', <- SR2. unfold sabs. rewrite FS3. destruct (s_fs s2 q) as [|dd|m] eqn:SQ; try reflexivity.
      rewrite O3; [reflexivity|]. intros ->. apply Q. apply (wf_one _ W2 _ _ _ SQ P2). }
    exists j, g3. split; [exact P'|]. split; [rewrite G'; exact G3|]. split. { destruct ST3 as (E & _). rewrite E. apply (on_iun _ _ _ _ _ _ OD). }
    intros LPG. destruct EF3 as [EF3|(new & PS & KP & FA)]; [lia|].
    assert (B0 : forall k r, sabs s (u_path ud) k r = abs g k r) by (intros k r; rewrite <- SR2, (sabs_open s2 _ j g P2 G2); reflexivity).
    assert (B1 : forall k r, sabs s' (u_path ud) k r = abs g3 k r) by (intros k r; rewrite SR', (sabs_open s3 _ j g3 P3 G3); reflexivity).
    exists (positions (page_sizes g)), new. split; [exact PS|]. split.
    { intros k r. rewrite B0, (positions_some g k r (fo_inv _ (wf_fok _ W2 j g G2))), abs_none. reflexivity. }
    split; [intros k r I; rewrite B0, B1; apply KP; exact I|].
    clear - FA AA B1. induction FA as [|x y l m HD TL IH]; constructor; [|exact IH].
    destruct HD as (e & ws & e' & ws' & A1 & A2 & A3 & A4). exists e, ws, e', ws'. rewrite AA, B1. auto.
Qed.

Lemma all_eqb_eq l : forall m, all_eqb l m = true <-> l = m.
Proof.
  induction l as [|[a b] l IH]; intros [|[a' b'] m]; cbn [all_eqb]; try (split; [discriminate|discriminate]); [tauto|].
  unfold pair_eqb. cbn [fst snd]. rewrite !andb_true_iff, !Z.eqb_eq, IH. split; [intros ((-> & ->) & ->); reflexivity|]. intros H. injection H as -> -> ->. auto.
Qed.

Lemma key_words_eq h h' i n : key_words h i n = key_words h' i n <-> forall k, (2 * i <= k < 2 * (i + n))%nat -> nth (16 + k) h 0 = nth (16 + k) h' 0.
Proof.
  unfold key_words. split.
  - intros E k K. set (j := (k / 2)%nat). assert (KJ : (k = 2 * j \/ k = 2 * j + 1)%nat) by (unfold j; pose proof (Nat.div_mod k 2 ltac:(lia)); pose proof (Nat.mod_upper_bound k 2 ltac:(lia)); lia).
    clearbody j. assert (J : In j (seq i n)) by (apply in_seq; lia). pose proof (ext_in_map E j J) as X. cbv beta in X. unfold hget in X. pose proof (f_equal fst X) as X1. pose proof (f_equal snd X) as X2. cbn [fst snd] in X1, X2.
    destruct KJ as [->| ->]; [exact X1|]. replace (16 + (2 * j + 1))%nat with (17 + 2 * j)%nat by lia. exact X2.
  - intros H. apply map_ext_in. intros j J. apply in_seq in J. unfold hget. f_equal; [apply H; lia|]. replace (17 + 2 * j)%nat with (16 + (2 * j + 1))%nat by lia. apply H. lia.
Qed.

Lemma compatible_iff h h' : all_words h -> compatible h h' = true <-> same_keys h h'.
Proof.
  intros AW. unfold compatible, same_keys, n_keys. rewrite !andb_true_iff, !Z.eqb_eq, !all_eqb_eq. unfold pri_keys, aux_keys. unfold h_nprm, h_lprm, h_naux, h_laux, hget.
  change H_PRM with 10%nat. change H_AUX with 11%nat.
  assert (N0 : forall k, 0 <= nth k h 0).
  { intros k. destruct (Nat.lt_ge_cases k (length h)) as [K|K]; [|rewrite nth_overflow by lia; lia]. unfold all_words in AW. rewrite Forall_forall in AW. apply (AW (nth k h 0)). apply nth_In. exact K. }
  pose proof (Z.div_pos _ (2 ^ 16) (N0 10%nat) ltac:(lia)) as P1. pose proof (Z.div_pos _ (2 ^ 16) (N0 11%nat) ltac:(lia)) as P2. split.
  - intros (((((A & B) & C) & D) & E) & F).
    assert (W1 : nth 10 h 0 = nth 10 h' 0) by (rewrite (Z.div_mod (nth 10 h 0) (2 ^ 16)), (Z.div_mod (nth 10 h' 0) (2 ^ 16)) by lia; congruence).
    assert (W2 : nth 11 h 0 = nth 11 h' 0) by (rewrite (Z.div_mod (nth 11 h 0) (2 ^ 16)), (Z.div_mod (nth 11 h' 0) (2 ^ 16)) by lia; congruence).
    split; [exact W1|]. split; [exact W2|]. rewrite <- W1 in E, F. rewrite <- W2 in F. rewrite key_words_eq in E, F. intros k K.
    destruct (Nat.lt_ge_cases k (2 * Z.to_nat (nth 10 h 0 / 2 ^ 16))); [apply E; lia|apply F; lia].
  - intros (W1 & W2 & K). rewrite <- W1, <- W2. rewrite !key_words_eq. repeat split; intros k Hk; apply K; lia.
Qed.

(** ** No record changes when an error is reported *)
Lemma use_dest_same junk fn src dst us ud n s r s1 : wf s -> fn dst = Some ud -> is_dest s dst (u_path ud) (u_ro ud) (u_std ud) n ->
  (forall h, sta_hdr s src (u_path us) = Some (Go h) -> keys_ok (pri_keys h) (aux_keys h)) -> kp_ok (u_kp ud) ->
  use_dest junk fn 1 src dst us ud s = Some (r, s1) -> same_recs s s1.
Proof.
  intros W FN DD KO KP. unfold use_dest. destruct DD as [(j & g & P & F & U & WB & NN)|[(d & P & FX & RO & NN & SG)|(P & FX & NN)]].
  - rewrite <- U at 1. rewrite (file_index_of _ _ _ W F). destruct (sta_hdr s dst (u_path ud)); cbn [bind]; try discriminate. intros H. assert (s1 = s) as -> by congruence. apply same_recs_refl.
  - rewrite FX, P. destruct (sta_hdr s dst (u_path ud)) as [[e|h0]|]; cbn [bind]; try discriminate. { intros H. assert (s1 = s) as -> by congruence. apply same_recs_refl. }
    destruct (step (OpOpen junk (u_path ud) dst (u_ro ud) (u_std ud) (u_kp ud) APPEND) s) as [[c s2]|] eqn:ST; cbn [bind]; [|discriminate].
    intros H. assert (s2 = s1) as -> by congruence.
    assert (OK : ok_op s (OpOpen junk (u_path ud) dst (u_ro ud) (u_std ud) (u_kp ud) APPEND)).
    { split; [exact KP|]. split; [unfold APPEND; lia|]. intros T d' P'. assert (d' = d) as -> by congruence. apply SG. exact T. }
    apply (step_spec _ _ _ _ W OK ST).
  - rewrite FX, P. destruct (sta_hdr s src (u_path us)) as [[e|h0]|]; cbn [bind]; try discriminate. { intros H. assert (s1 = s) as -> by congruence. apply same_recs_refl. }
    change (Z.to_nat 1) with 1%nat. cbn [use_create]. rewrite FN.
    destruct (step (OpCreate junk (u_path ud) dst (u_std ud) (u_kp ud) (pri_keys h0) (aux_keys h0) (hget h0 3)) s) as [[c s2]|] eqn:ST; cbn [bind]; [|discriminate].
    intros H. assert (s2 = s1) as -> by (destruct (c <? 0); cbn [bind] in H; congruence).
    assert (OK : ok_op s (OpCreate junk (u_path ud) dst (u_std ud) (u_kp ud) (pri_keys h0) (aux_keys h0) (hget h0 3))) by (split; [apply (KO h0 eq_refl)|exact KP]).
    pose proof (step_spec _ _ _ _ W OK ST) as (_ & EF). cbn [effect] in EF. destruct (c =? 0); [|rewrite EF; apply same_recs_refl].
    intros q k r0. rewrite EF. destruct (Nat.eqb_spec q (u_path ud)) as [->|]; [|reflexivity]. unfold sabs. rewrite P. reflexivity.
Qed.

Lemma use_error s junk fn src dst us ud d n L fuel c s' : wf s -> fn src = Some us -> fn dst = Some ud -> u_path us <> u_path ud ->
  kp_ok (u_kp us) -> kp_ok (u_kp ud) -> is_source s src (u_path us) d -> is_dest s dst (u_path ud) (u_ro ud) (u_std ud) n ->
  (u_std us = true -> nth 3 d 0 = STDR \/ nth 3 d 0 = STDS) -> (forall h, sta_hdr s src (u_path us) = Some (Go h) -> keys_ok (pri_keys h) (aux_keys h)) ->
  whole d -> in_file_order (sabs s (u_path us)) L -> n + dsize d + (Z.of_nat (length L) + 2) * 8200 + 417 < 2 ^ 31 ->
  xdfuse fuel junk fn 1 src dst s = Some (c, s') -> c < 0 -> same_recs s s'.
Proof.
  intros W FS FD PP KS KD SR DR SG KO WH OL BG X C. pose proof X as X0. revert X. unfold xdfuse. rewrite FS, FD.
  assert (SD : src <> dst) by congruence.
  destruct (use_dest junk fn 1 src dst us ud s) as [[r s1]|] eqn:UD; cbn [bind]; try discriminate.
  pose proof (use_dest_same _ _ _ _ _ _ _ _ _ _ W FD DR KO KD UD) as SR1.
  destruct r as [e|h]. { intros H. assert (s1 = s') as -> by congruence. exact SR1. }
  destruct (use_dest_spec junk fn src dst us ud n s h s1 W FD DR KO KD UD) as (j & g & OD & WB & SZ).
  assert (SRC : is_source s1 src (u_path us) d).
  { destruct SR as [(P & FX)|(i & f & P & F & R)].
    - left. split; [rewrite (on_fs _ _ _ _ _ _ OD) by exact PP; exact P|rewrite (on_index _ _ _ _ _ _ OD) by exact SD; exact FX].
    - right. exists i, f. split; [rewrite (on_fs _ _ _ _ _ _ OD) by exact PP; exact P|]. split; [apply (on_other _ _ _ _ _ _ OD); exact F|exact R]. }
  destruct (use_src junk src us s1) as [[[close c2] s2]|] eqn:US; cbn [bind]; [|discriminate].
  destruct (Z.ltb_spec c2 0) as [C2|C2].
  { intros H. assert (s2 = s') as -> by congruence. revert US. unfold use_src. destruct SRC as [(P & FX)|(i & f & P & F & U & _)].
    - rewrite FX. destruct (step (OpOpen junk (u_path us) src (u_ro us) (u_std us) (u_kp us) RDMODE) s1) as [[c0 s0]|] eqn:ST; cbn [bind]; [|discriminate].
      intros H0. assert (s0 = s') as -> by congruence.
      assert (OK : ok_op s1 (OpOpen junk (u_path us) src (u_ro us) (u_std us) (u_kp us) RDMODE)).
      { split; [exact KS|]. split; [unfold RDMODE; lia|]. intros T d' P'. assert (d' = d) as -> by congruence. apply SG. exact T. }
      pose proof (proj2 (step_spec _ _ _ _ (on_wf _ _ _ _ _ _ OD) OK ST)) as E. cbn [effect] in E. intros q k r. rewrite E. apply SR1.
    - rewrite <- U at 1. rewrite (file_index_of _ _ _ (on_wf _ _ _ _ _ _ OD) F). intros H0. assert (c2 = 0) by congruence. lia. }
  destruct (use_src_spec junk src us d s1 close c2 s2 (on_wf _ _ _ _ _ _ OD) SRC KS SG US C2) as (i & fs & OS & DS & NW).
  pose proof (on_wf _ _ _ _ _ _ OS) as W2. pose proof (on_i _ _ _ _ _ _ OS) as F2.
  assert (FX2 : file_index (s_w s2) src = Some i) by (rewrite <- (on_iun _ _ _ _ _ _ OS); apply (file_index_of s2 i fs W2 F2)).
  assert (SR2 : same_recs s s2) by (intros q k r; rewrite (on_same _ _ _ _ _ _ OS), (on_same _ _ _ _ _ _ OD); reflexivity).
  unfold sta_hdr at 1. rewrite FX2, F2. cbn [bind].
  destruct (negb (compatible h (f_hdr fs))) eqn:CP.
  { intros H. destruct (use_end_spec _ _ _ _ _ _ _ _ _ W2 FX2 F2 H) as (_ & _ & S3 & _). intros q k r. rewrite S3. apply SR2. }
  (* the copy itself reports no error *)
  rewrite ?FX2. cbn [bind]. rewrite ?F2. cbn [bind]. intros H. exfalso.
  destruct (if 0 <? dsize (f_disk fs) then _ else _) as [s3|]; cbn [bind] in H; [|discriminate]. unfold use_end in H.
  destruct close; [destruct (step _ s3) as [[c0 s0]|]; cbn [bind] in H; [|discriminate]|]; assert (c = 0) by congruence; lia.
Qed.

(** ** Two open files *)
Lemma use_open s junk fn src dst us ud d i fs j g L fuel : wf s -> fn src = Some us -> fn dst = Some ud ->
  s_fs s (u_path us) = Opened i -> w_file (s_w s) i = Some fs -> f_iun fs = src -> ~ writable fs -> f_disk fs = d ->
  s_fs s (u_path ud) = Opened j -> w_file (s_w s) j = Some g -> f_iun g = dst -> writable g -> f_kp g = std_kp -> u_path us <> u_path ud ->
  whole d -> in_file_order (sabs s (u_path us)) L -> dsize (f_disk g) + dsize d + (Z.of_nat (length L) + 2) * 8200 + 417 < 2 ^ 31 -> dsize d <= 2 * Z.of_nat fuel ->
  (same_keys (f_hdr g) (f_hdr fs) -> exists s', xdfuse fuel junk fn 1 src dst s = Some (0, s')) /\
  (~ same_keys (f_hdr g) (f_hdr fs) -> xdfuse fuel junk fn 1 src dst s = Some (ERR_NOT_COMP, s)).
Proof.
  intros W FS FD P F U NW D P' G U' WB KP PP WH OL BG FU. unfold xdfuse. rewrite FS, FD.
  assert (FX : file_index (s_w s) src = Some i) by (rewrite <- U; apply (file_index_of s i fs W F)).
  assert (GX : file_index (s_w s) dst = Some j) by (rewrite <- U'; apply (file_index_of s j g W G)).
  unfold use_dest. rewrite GX. unfold sta_hdr at 1 3. rewrite GX, G. cbn [bind]. unfold use_src. rewrite FX. cbn [bind]. change (0 <? 0) with false. cbv iota.
  unfold sta_hdr. rewrite FX, F. cbn [bind]. rewrite F. cbn [bind].
  rewrite <- (compatible_iff _ (f_hdr fs) (g_hw _ _ (proj1 (fo_inv _ (wf_fok _ W j g G))))). split.
  - intros CP. rewrite CP. cbn [negb]. rewrite D.
    destruct (source_clean s i fs d W F NW D WH) as (f0 & CL & D0 & SZ0 & AW & AB).
    assert (POS : 0 < dsize d). { rewrite SZ0. pose proof (g_in _ _ (proj1 (proj1 CL)) OHdr 0 (Z.of_nat (length (f_hdr f0))) eq_refl) as IN. fold (fsize f0) in IN. lia. }
    rewrite (proj2 (Z.ltb_lt _ _) POS). destruct (chain_all f0 (proj1 CL)) as (L0 & CH).
    assert (AA : forall k r, sabs s (u_path us) k r = abs f0 k r) by (intros k r; rewrite AB, (sabs_open s (u_path us) i fs P F); reflexivity).
    assert (L0 = L) as -> by (apply (order_unique f0 L0 L _ (proj1 CL) AA CH OL)).
    pose proof (page_wlen_16 g (fo_inv _ (wf_fok _ W j g G))) as PW. pose proof (page_wlen_pos (f_plen g)) as PW0.
    pose proof (g_size _ _ (proj1 (fo_inv _ (wf_fok _ W j g G)))) as SZ. fold (fsize g) in SZ.
    assert (DF : f_disk fs = f_disk f0) by congruence. assert (SZ1 : dsize (f_disk f0) = fsize f0) by congruence. assert (AW1 : all_words (f_disk f0)) by (rewrite D0; exact AW).
    assert (IJ : i <> j) by (intros ->; apply PP; apply (wf_one _ W _ _ _ P P')).
    assert (BG2 : fsize g + (fsize f0 - 0) + (Z.of_nat (length L) + 1) * page_wlen (f_plen g) + 1 < 2 ^ 31) by nia.
    pose proof (loop_spec f0 junk 1 src dst i fs j CL SZ1 AW1 DF IJ ltac:(lia) 0 L CH fuel 2505 0 s g ltac:(lia) W FX F GX G WB ltac:(lia) BG2) as LP.
    rewrite SZ0. change (0 + 1) with 1 in LP. destruct (use_loop fuel junk 1 (fsize f0) src dst 2505 1 0 s) as [s3|]; cbn [bind use_end].
    + exists s3. reflexivity.
    + exfalso. apply LP; [lia|exact KP].
  - intros CP. destruct (compatible (f_hdr g) (f_hdr fs)); [congruence|]. reflexivity.
Qed.

Lemma source_order s src p d : wf s -> is_source s src p d -> whole d -> exists L, in_file_order (sabs s p) L /\ forall M, in_file_order (sabs s p) M -> M = L.
Proof.
  intros W SR WH. assert (X : exists f0, clean f0 /\ forall k r, sabs s p k r = abs f0 k r).
  { destruct SR as [(P & _)|(i & f & P & F & U & NW & D)].
    - destruct (wf_img _ W p d P) as (A & f0 & CL & D0 & AB). exists f0. split; [exact CL|]. intros k r. rewrite (sabs_shut _ _ _ P), <- D0. apply dabs_clean. exact CL.
    - destruct (fo_ro _ (wf_fok _ W i f F) NW) as (_ & f0 & CL & D0 & AB). exists f0. split; [exact CL|]. intros k r. rewrite (sabs_open _ _ _ _ P F). symmetry. apply AB. }
  destruct X as (f0 & CL & AB). destruct (chain_all f0 (proj1 CL)) as (L & CH). exists L. split; [apply (chain_order f0 L _ (proj1 CL) AB CH)|].
  intros M OM. symmetry. apply (order_unique f0 L M _ (proj1 CL) AB CH OM).
Qed.
