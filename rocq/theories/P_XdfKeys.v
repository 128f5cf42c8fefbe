(** XDF files with generic keys: properties C30, and C21, C22 for these files.

    [prim_fields], [info_fields]: the keys described by a file header: each is
    a word number, a shift, a length in bits, and whether letters are made
    upper case. [key_layout fs n]: they fit in [n] words without overlapping.
    [key_in], [info_in]: the value of a key in a record buffer.
    [as_generic kp fs]: the functions [kp] that write and read the keys of a
    file do what the generic ones do when the header describes the keys [fs].
    It holds of the generic functions ([gen_as_generic] below) and of those of
    report files (BurpKeys.v). *)
From Coq Require Import ZArith List Lia Bool.
From Verif Require Import Bits Handles WaFile Xdf XdfOpen XdfSearch XdfHist XdfSta XdfInv XdfSpec XdfReopen XdfThm XdfThm2 XdfEnum XdfThm3 XdfLib XdfAbs XdfSys XdfSys2 XdfDemo XdfKeys XdfKeysFacts XdfKeysHist XdfKeysThm.
Import ListNotations.
Open Scope Z_scope.

Lemma gen_as_generic fs : as_generic gen_kp fs.
Proof. intros h _. split; intros; reflexivity. Qed.

(** ** C30 *)

(** Keys written by c_xdfini are those c_xdfhdr returns; those given as -1 read
    as 0. *)
Theorem c30_ini_then_hdr : forall w mask iun buf idtyp keys info ninfo i f b, file_index w iun = Some i -> w_file w i = Some f -> as_generic (f_kp f) (prim_fields (f_hdr f)) -> (1 <= f_plen f)%nat ->
  let fs := prim_fields (f_hdr f) in let gs := info_fields (f_hdr f) in
  key_layout fs (2 * (f_plen f - 1)) -> key_layout gs (2 * f_ilen f) -> (length fs <= 32)%nat -> (2 * (f_plen f + f_ilen f) + 9 <= Z.to_nat (s32 (b_nwords buf)))%nat ->
  xdfini w mask iun buf idtyp keys (Z.of_nat (length keys)) info ninfo = Some (0, b) -> keys <> [] ->
  xdfhdr w b ninfo = Some (Go (0, 0, idtyp, map (fun fk => if snd fk =? 2 ^ 32 - 1 then 0 else key_of (fst fk) (snd fk) mod 2 ^ fd_n (fst fk)) (combine fs keys),
    if 0 <? ninfo then map (fun fk => if snd fk =? 2 ^ 32 - 1 then 0 else key_of (fst fk) (snd fk) mod 2 ^ fd_n (fst fk)) (combine gs info) else [])).
Proof.
  intros w mask iun buf idtyp keys info ninfo i f b FX F KP PL fs gs LP LI L32 LB XI NK. unfold xdfini in XI. rewrite FX, F in XI. cbn [bind] in XI.
  set (n := (Z.to_nat (s32 (b_nwords buf)) - BUF_HDR)%nat) in *. assert (NL : (2 * (f_plen f + f_ilen f) <= n)%nat) by (unfold n, BUF_HDR; lia).
  destruct (Nat.ltb_spec (length (b_data buf)) n) as [|LN]; [discriminate|]. destruct (Nat.ltb_spec (Z.to_nat (s32 (b_nwords buf))) BUF_HDR) as [|_]; [discriminate|]. cbn [orb] in XI. cbv zeta in XI.
  destruct (Z.ltb_spec idtyp 1) as [|T1]; [discriminate|]. destruct (Z.ltb_spec 126 idtyp) as [|T2]; [discriminate|]. cbn [orb] in XI.
  set (d0 := repeat 0 n ++ skipn n (b_data buf)) in *. assert (LD : length d0 = length (b_data buf)) by (unfold d0; rewrite app_length, repeat_length, skipn_length; lia).
  destruct (Nat.ltb_spec (length d0) 1) as [|L1]; [discriminate|]. set (d1 := upd d0 0 (mk_hd idtyp (w_lng (nth 0 d0 0)))) in *.
  destruct (write_keys f mask d1 keys (Z.of_nat (length keys)) info ninfo) as [d2|] eqn:WK; [|discriminate]. cbn [bind] in XI.
  assert (LK : 0 <? Z.of_nat (length keys) = true) by (apply Z.ltb_lt; destruct keys; [congruence|cbn [length]; lia]).
  assert (LD1 : length d1 = length d0) by apply upd_length.
  destruct (write_keys_spec f mask d1 keys _ info ninfo d2 KP PL LP LI ltac:(lia) WK) as (E1 & E2 & E3 & E4 & _). fold fs gs in E3, E4.
  assert (EB : b_iun b = iun /\ b_data b = d2) by (match type of XI with Some (_, ?x) = _ => assert (EB0 : b = x) by congruence; rewrite EB0; split; reflexivity end). destruct EB as [EB1 EB2].
  assert (Z0 : forall j, (1 <= j < n)%nat -> nth j d1 0 = 0).
  { intros j J. unfold d1. rewrite upd_nthd. rewrite (proj2 (Nat.eqb_neq j 0)) by lia. cbn [andb]. unfold d0. rewrite app_nth1 by (rewrite repeat_length; lia). apply nth_repeat. }
  assert (N0 : nth 0 d1 0 = mk_hd idtyp 0).
  { unfold d1. rewrite upd_nthd, Nat.eqb_refl. rewrite (proj2 (Nat.ltb_lt _ _)) by lia. cbn [andb]. f_equal. unfold d0. destruct n; [lia|]. reflexivity. }
  assert (H01 : nth 0 d2 0 = nth 0 d1 0 /\ nth 1 d2 0 = nth 1 d1 0).
  { split; [rewrite <- (nth_firstn_d 2 d2 0) by lia; rewrite E2; apply nth_firstn_d; lia|rewrite <- (nth_firstn_d 2 d2 1) by lia; rewrite E2; apply nth_firstn_d; lia]. }
  destruct H01 as [H0 H1]. rewrite (xdfhdr_gen w b ninfo i f); [|rewrite EB1; exact FX|exact F|exact KP|exact PL|exact LP|exact LI|exact L32|rewrite EB2; lia].
  rewrite EB2, H0, H1, N0, (Z0 1%nat) by lia. rewrite hd_lng, hd_idtyp. rewrite (Z.mod_small idtyp) by lia. fold fs gs. rewrite E3, E4, LK.
  assert (GZ : forall x, fits x -> get_field x 0 = 0). { intros x [A [B C]]. unfold get_field. rewrite Z.shiftr_0_l. apply Z.land_0_l. }
  do 2 f_equal. f_equal; [f_equal; unfold new_keys; apply map_ext_in; intros [x k] X; unfold after_write; cbn [fst snd]; destruct (k =? 2 ^ 32 - 1); [|reflexivity]|].
  - apply in_combine_l in X. destruct LP as (A & _ & C). rewrite Forall_forall in A, C. pose proof (C x X) as CX. cbn beta in CX. unfold key_in. rewrite Z0 by lia. apply GZ. apply A. exact X.
  - destruct (0 <? ninfo); [|reflexivity]. unfold new_keys; apply map_ext_in; intros [x k] X; unfold after_write; cbn [fst snd]; destruct (k =? 2 ^ 32 - 1); [|reflexivity].
    apply in_combine_l in X. destruct LI as (A & _ & C). rewrite Forall_forall in A, C. pose proof (C x X) as CX. cbn beta in CX. unfold info_in. rewrite Z0 by lia. apply GZ. apply A. exact X.
Qed.
Print Assumptions c30_ini_then_hdr.

(** c_xdfupd changes exactly the keys given other than -1 (and the type, unless
    it is -1): c_xdfhdr returns the new values of those, the old values of the
    others; every bit of the buffer outside the keys given keeps its value. *)
Theorem c30_upd_then_hdr : forall w mask iun buf idtyp keys nkey info ninfo i f b, file_index w iun = Some i -> w_file w i = Some f -> as_generic (f_kp f) (prim_fields (f_hdr f)) -> (1 <= f_plen f)%nat ->
  let fs := prim_fields (f_hdr f) in let gs := info_fields (f_hdr f) in
  key_layout fs (2 * (f_plen f - 1)) -> key_layout gs (2 * f_ilen f) -> (length fs <= 32)%nat -> (2 * (f_plen f + f_ilen f) <= length (b_data buf))%nat ->
  xdfupd w mask iun buf idtyp keys nkey info ninfo = Some (0, b) ->
  let d := b_data buf in
  let val := fun old (fk : field * Z) => if snd fk =? 2 ^ 32 - 1 then old (fst fk) else key_of (fst fk) (snd fk) mod 2 ^ fd_n (fst fk) in
  xdfhdr w b 1 = Some (Go (nth 1 d 0, w_lng (nth 0 d 0), (if idtyp =? -1 then w_idtyp (nth 0 d 0) else idtyp),
     (if 0 <? nkey then map (val (key_in d)) (combine fs keys) else map (key_in d) fs),
     (if 0 <? ninfo then map (val (info_in (f_plen f) d)) (combine gs info) else map (info_in (f_plen f) d) gs))) /\
  (forall j c, (1 <= j)%nat -> 0 <= c < 32 ->
     (forall t x k, 0 < nkey -> nth_error fs t = Some x -> nth_error keys t = Some k -> k <> 2 ^ 32 - 1 -> ~ (j = (2 + fd_w x)%nat /\ fd_s x <= c < fd_s x + fd_n x)) ->
     (forall t x k, 0 < ninfo -> nth_error gs t = Some x -> nth_error info t = Some k -> k <> 2 ^ 32 - 1 -> ~ (j = (2 * f_plen f + fd_w x)%nat /\ fd_s x <= c < fd_s x + fd_n x)) ->
     Z.testbit (nth j (b_data b) 0) c = Z.testbit (nth j d 0) c).
Proof.
  intros w mask iun buf idtyp keys nkey info ninfo i f b FX F KP PL fs gs LP LI L32 LB XU d val. unfold xdfupd in XU. rewrite FX, F in XU. cbn [bind] in XU.
  destruct ((idtyp <? 1) && negb (idtyp =? -1) || (126 <? idtyp)) eqn:BAD; [discriminate|]. apply orb_false_elim in BAD. destruct BAD as [B1 B2]. apply Z.ltb_ge in B2.
  destruct (Nat.ltb_spec (length (b_data buf)) 1) as [|L1]; [discriminate|]. cbv zeta in XU. fold d in XU.
  set (d1 := if -1 <? idtyp then upd d 0 (mk_hd idtyp (w_lng (nth 0 d 0))) else d) in *.
  destruct (write_keys f mask d1 keys nkey info ninfo) as [d2|] eqn:WK; [|discriminate]. cbn [bind] in XU.
  assert (EB : b_iun b = iun /\ b_data b = d2) by (match type of XU with Some (_, ?x) = _ => assert (EB0 : b = x) by congruence; rewrite EB0; split; reflexivity end). destruct EB as [EB1 EB2].
  assert (LD1 : length d1 = length d) by (unfold d1; destruct (-1 <? idtyp); [apply upd_length|reflexivity]).
  assert (ND : forall j, (1 <= j)%nat -> nth j d1 0 = nth j d 0).
  { intros j J. unfold d1. destruct (-1 <? idtyp); [|reflexivity]. rewrite upd_nthd. rewrite (proj2 (Nat.eqb_neq j 0)) by lia. reflexivity. }
  assert (N0 : w_lng (nth 0 d1 0) = w_lng (nth 0 d 0) /\ w_idtyp (nth 0 d1 0) = if idtyp =? -1 then w_idtyp (nth 0 d 0) else idtyp).
  { unfold d1. destruct (Z.eqb_spec idtyp (-1)) as [->|N]; [cbn [Z.ltb Z.compare]; auto|]. cbn [negb andb] in B1. rewrite andb_true_r in B1. apply Z.ltb_ge in B1.
    rewrite (proj2 (Z.ltb_lt _ _)) by lia. rewrite upd_nthd, Nat.eqb_refl. rewrite (proj2 (Nat.ltb_lt _ _)) by (unfold d; lia). cbn [andb]. rewrite hd_lng, hd_idtyp.
    split; [|apply Z.mod_small; lia]. unfold w_lng. apply Z.mod_mod. lia. }
  destruct (write_keys_spec f mask d1 keys nkey info ninfo d2 KP PL LP LI ltac:(unfold d in LD1; lia) WK) as (E1 & E2 & E3 & E4 & E5). fold fs gs in E3, E4, E5.
  split; [|intros j c J C N1 N2; rewrite EB2, <- (ND j J); apply E5; assumption].
  assert (H01 : nth 0 d2 0 = nth 0 d1 0 /\ nth 1 d2 0 = nth 1 d1 0).
  { split; [rewrite <- (nth_firstn_d 2 d2 0) by lia; rewrite E2; apply nth_firstn_d; lia|rewrite <- (nth_firstn_d 2 d2 1) by lia; rewrite E2; apply nth_firstn_d; lia]. }
  destruct H01 as [H0 H1]. rewrite (xdfhdr_gen w b 1 i f); [|rewrite EB1; exact FX|exact F|exact KP|exact PL|exact LP|exact LI|exact L32|rewrite EB2; unfold d in LD1; lia].
  rewrite EB2, H0, H1, (ND 1%nat) by lia. destruct N0 as [N01 N02]. rewrite N01, N02. fold fs gs. rewrite E3, E4. cbn [Z.ltb Z.compare].
  assert (KD : forall x, key_in d1 x = key_in d x) by (intros x; unfold key_in; rewrite ND by lia; reflexivity).
  assert (ID : forall x, info_in (f_plen f) d1 x = info_in (f_plen f) d x) by (intros x; unfold info_in; rewrite ND by lia; reflexivity).
  do 2 f_equal. f_equal; [f_equal|]; unfold new_keys.
  - destruct (0 <? nkey); apply map_ext; [intros [x k]; unfold val, after_write; cbn [fst snd]; rewrite KD; reflexivity|exact KD].
  - destruct (0 <? ninfo); apply map_ext; [intros [x k]; unfold val, after_write; cbn [fst snd]; rewrite ID; reflexivity|exact ID].
Qed.
Print Assumptions c30_upd_then_hdr.

(** Keys written by c_xdfini in a buffer whose record is then put are those
    c_xdfprm returns for that record, after any history that spares it, with the
    length and the type of the record. ([buf] is the buffer put: its key words
    are those c_xdfini wrote; data may have been added since.) *)
Theorem c30_ini_put_prm : forall s mask iun buf0 idtyp keys info ninfo b0 i f junk handle buf s1, reach s -> file_index (s_w s) iun = Some i -> w_file (s_w s) i = Some f -> as_generic (f_kp f) (prim_fields (f_hdr f)) ->
  let fs := prim_fields (f_hdr f) in let gs := info_fields (f_hdr f) in
  key_layout fs (2 * (f_plen f - 1)) -> key_layout gs (2 * f_ilen f) -> all_words keys -> keys <> [] -> (2 * (f_plen f + f_ilen f) + 9 <= Z.to_nat (s32 (b_nwords buf0)))%nat ->
  xdfini (s_w s) mask iun buf0 idtyp keys (Z.of_nat (length keys)) info ninfo = Some (0, b0) ->
  w_idtyp (nth 0 (b_data buf) 0) = idtyp -> firstn (2 * (f_plen f - 1)) (skipn 2 (b_data buf)) = firstn (2 * (f_plen f - 1)) (skipn 2 (b_data b0)) ->
  ok_op s (OpPut junk iun handle buf) -> step (OpPut junk iun handle buf) s = Some (0, s1) ->
  exists p k r addr, s_fs s1 p = Opened i /\
    forall l s2 j g, hist (spares p k r) s1 l s2 -> s_fs s2 p = Opened j -> w_file (s_w s2) j = Some g -> as_generic (f_kp g) (prim_fields (f_hdr g)) ->
      xdfprm (s_w s2) (rec_handle j k r) = Some (Go (addr, b_nbits buf / 32 / 2, idtyp,
        map (fun fk => if snd fk =? 2 ^ 32 - 1 then 0 else key_of (fst fk) (snd fk) mod 2 ^ fd_n (fst fk)) (combine fs keys))).
Proof.
  intros s mask iun buf0 idtyp keys info ninfo b0 i f junk handle buf s1 R FX F KP fs gs LP LI WK NK LB XI TB KB OK ST. pose proof (reach_wf _ R) as W.
  pose proof (g_plen _ _ (proj1 (fo_inv _ (wf_fok _ W i f F)))) as PL.
  destruct (put_prm_gen _ _ _ _ _ _ W OK ST) as (p & i' & k & r & f' & addr & P & F' & IU & PP).
  assert (i' = i) as ->. { destruct (file_index_own _ _ _ FX) as (g0 & G0 & IU0 & _). apply (wf_iun _ W i' i f' g0 F' G0). congruence. }
  assert (f' = f) as -> by congruence. exists p, k, r, addr. split; [exact P|]. intros l s2 j g H P2 G KG.
  unfold xdfini in XI. rewrite FX, F in XI. cbn [bind] in XI.
  set (n := (Z.to_nat (s32 (b_nwords buf0)) - BUF_HDR)%nat) in *. assert (NL : (2 * (f_plen f + f_ilen f) <= n)%nat) by (unfold n, BUF_HDR; lia).
  destruct (Nat.ltb_spec (length (b_data buf0)) n) as [|LN]; [discriminate|]. destruct (Nat.ltb_spec (Z.to_nat (s32 (b_nwords buf0))) BUF_HDR) as [|_]; [discriminate|]. cbn [orb] in XI. cbv zeta in XI.
  destruct (Z.ltb_spec idtyp 1) as [|T1]; [discriminate|]. destruct (Z.ltb_spec 126 idtyp) as [|T2]; [discriminate|]. cbn [orb] in XI.
  set (d0 := repeat 0 n ++ skipn n (b_data buf0)) in *. assert (LD : length d0 = length (b_data buf0)) by (unfold d0; rewrite app_length, repeat_length, skipn_length; lia).
  destruct (Nat.ltb_spec (length d0) 1) as [|L1]; [discriminate|]. set (d1 := upd d0 0 (mk_hd idtyp (w_lng (nth 0 d0 0)))) in *.
  destruct (write_keys f mask d1 keys (Z.of_nat (length keys)) info ninfo) as [d2|] eqn:WKS; [|discriminate]. cbn [bind] in XI.
  assert (LK : 0 <? Z.of_nat (length keys) = true) by (apply Z.ltb_lt; destruct keys; [congruence|cbn [length]; lia]).
  assert (LD1 : length d1 = length d0) by apply upd_length.
  destruct (write_keys_spec f mask d1 keys _ info ninfo d2 KP ltac:(lia) LP LI ltac:(lia) WKS) as (E1 & E2 & E3 & E4 & _). fold fs in E3. rewrite LK in E3. unfold new_keys in E3.
  assert (EB2 : b_data b0 = d2) by (match type of XI with Some (_, ?x) = _ => assert (EB0 : b0 = x) by congruence; rewrite EB0; reflexivity end).
  assert (Z0 : forall j, (1 <= j < n)%nat -> nth j d1 0 = 0).
  { intros t J. unfold d1. rewrite upd_nthd. rewrite (proj2 (Nat.eqb_neq t 0)) by lia. cbn [andb]. unfold d0. rewrite app_nth1 by (rewrite repeat_length; lia). apply nth_repeat. }
  pose proof LP as (LF & LA & LW). rewrite Forall_forall in LF, LW.
  assert (KEQ : forall x, In x fs -> key_in (b_data buf) x = key_in d2 x).
  { intros x X. pose proof (LW x X) as WX. cbn beta in WX. unfold key_in. rewrite <- !nth_skipn_d. rewrite <- (nth_firstn_d (2 * (f_plen f - 1)) (skipn 2 (b_data buf)) (fd_w x)) by lia. rewrite KB, EB2, nth_firstn_d by lia. reflexivity. }
  set (val := fun fk : field * Z => if snd fk =? 2 ^ 32 - 1 then 0 else key_of (fst fk) (snd fk) mod 2 ^ fd_n (fst fk)).
  assert (VE : map (key_in d2) fs = map val (combine fs keys)).
  { rewrite E3. apply map_ext_in. intros [x k0] X. apply in_combine_l in X. unfold val, after_write. cbn [fst snd]. destruct (k0 =? 2 ^ 32 - 1); [|reflexivity].
    pose proof (LW x X) as WX. cbn beta in WX. unfold key_in. rewrite Z0 by lia. unfold get_field. rewrite Z.shiftr_0_l. apply Z.land_0_l. }
  assert (VF : forall t x, nth_error fs t = Some x -> exists k0, nth_error keys t = Some k0 /\ key_in d2 x = val (x, k0)).
  { intros t x X. assert (Y : nth_error (map (key_in d2) fs) t = Some (key_in d2 x)) by (rewrite nth_error_map, X; reflexivity). rewrite VE, nth_error_map in Y.
    destruct (nth_error (combine fs keys) t) as [[x' k0]|] eqn:C; [|discriminate]. cbn [option_map] in Y. exists k0.
    assert (Z1 : x' = x /\ nth_error keys t = Some k0).
    { clear - C X. revert t keys C X. generalize fs. induction fs0 as [|y fs0 IH]; intros [|t] [|z keys] C X; try discriminate; cbn in *; [split; congruence|eauto]. }
    destruct Z1 as [-> Z1]. split; [exact Z1|congruence]. }
  assert (VB : forall x k0, In x fs -> word_ok k0 -> val (x, k0) <> 2 ^ 32 - 1 /\ key_of x (val (x, k0)) = val (x, k0)).
  { intros x k0 X WK0. unfold val. cbn [fst snd]. destruct (LF x X) as (A & B & C). destruct (Z.eqb_spec k0 (2 ^ 32 - 1)) as [->|N].
    - split; [lia|]. pose proof (key_of_le x 0 ltac:(lia)). lia.
    - destruct WK0 as [K1 K2]. pose proof (key_of_le x k0 K1) as KL. pose proof (Z.mod_pos_bound (key_of x k0) (2 ^ fd_n x) ltac:(lia)) as MB.
      pose proof (Z.mod_le (key_of x k0) (2 ^ fd_n x) ltac:(lia) ltac:(lia)). split; [lia|].
      rewrite <- (key_of_mod x k0 (fd_n x)) at 2 by lia. symmetry. apply Z.mod_small. apply key_of_small. exact MB. }
  assert (NF : forall x, In x fs -> exists k0, In k0 keys /\ key_in d2 x = val (x, k0)).
  { intros x X. apply In_nth_error in X. destruct X as (t & X). destruct (VF t x X) as (k0 & K0 & V). exists k0. split; [exact (nth_error_In _ _ K0)|exact V]. }
  unfold all_words in WK. rewrite Forall_forall in WK.
  specialize (PP KP LP). rewrite TB in PP. rewrite (PP ltac:(intros x X; rewrite (KEQ x X); destruct (NF x X) as (k0 & K0 & ->); apply VB; [exact X|apply WK; exact K0]) l s2 j g H P2 G KG).
  do 3 f_equal. fold fs. rewrite <- VE. apply map_ext_in. intros x X. rewrite (KEQ x X). destruct (NF x X) as (k0 & K0 & ->). apply VB; [exact X|apply WK; exact K0].
Qed.
Print Assumptions c30_ini_put_prm.

(** ** C21 *)

(** Searches in a file with generic keys: exactly the live records whose keys
    other than those searched with -1 have the values searched for; by handle
    and with -1. The keys must start in the first key word and end in the last
    one. *)
Theorem c21_generic : forall s p i f junk filt keys nprim msk next, reach s -> s_fs s p = Opened i -> w_file (s_w s) i = Some f -> as_generic (f_kp f) (prim_fields (f_hdr f)) ->
  let fs := prim_fields (f_hdr f) in
  key_layout fs (2 * (f_plen f - 1)) -> spans fs (2 * (f_plen f - 1)) -> nprim <> 0 -> (length fs <= length keys)%nat ->
  let found := map (fun x => rec_handle i (fst x) (snd x))
    (filter (fun x => let e := entry_words f (fst x) (snd x) in (1 <=? e_idtyp e) && (e_idtyp e <=? 125) &&
        forallb (fun fk => (snd fk =? 2 ^ 32 - 1) || (key_in e (fst fk) =? key_of (fst fk) (snd fk) mod 2 ^ fd_n (fst fk))) (combine fs keys) &&
        filt (rec_handle i (fst x) (snd x))) (positions (page_sizes f))) in
  let call := fun w h => if next && negb (h =? 0) then xdfloc2 (S MAX_DIR_PAGES) junk filt w (f_iun f) (-1) [] 0 None
                         else xdfloc2 (S MAX_DIR_PAGES) junk filt w (f_iun f) h keys nprim msk in
  (exists w, enumerates call (s_w s) 0 found w) /\ (forall l w, enumerates call (s_w s) 0 l w -> l = found) /\ NoDup found.
Proof.
  intros s p i f junk filt keys nprim msk next R P F KP fs LY SP NP LK found call. pose proof (reach_wf _ R) as W.
  pose proof (fo_inv _ (wf_fok _ W i f F)) as FI.
  destruct (kp_search_spec s p i f junk filt keys nprim msk (f_kp f) (gen_match fs keys) W P F eq_refl NP (fun g GK E => gen_aims junk f keys nprim msk FI NP LY SP LK g GK ltac:(rewrite E; exact KP)) next) as (w & E).
  split; [exists w; exact E|]. split; [intros l w2 E2; apply (enum_det _ _ _ _ _ E _ _ E2)|]. exact (matching_nodup s i f filt (gen_match fs keys) W F).
Qed.
Print Assumptions c21_generic.

(** C22 for these files: no search finds a deleted record. *)
Theorem c22_generic : forall s h s1, reach s -> ok_op s (OpDel h) -> step (OpDel h) s = Some (0, s1) ->
  exists p, s_fs s p = Opened (hidx (s_w s) h) /\
  forall l s2 i f junk filt keys nprim msk found w, hist (keeps_file p) s1 l s2 -> s_fs s2 p = Opened i -> w_file (s_w s2) i = Some f -> as_generic (f_kp f) (prim_fields (f_hdr f)) ->
    key_layout (prim_fields (f_hdr f)) (2 * (f_plen f - 1)) -> spans (prim_fields (f_hdr f)) (2 * (f_plen f - 1)) -> nprim <> 0 -> (length (prim_fields (f_hdr f)) <= length keys)%nat ->
    enumerates (fun w h => xdfloc2 (S MAX_DIR_PAGES) junk filt w (f_iun f) h keys nprim msk) (s_w s2) 0 found w -> ~ In (rec_handle i (hpage h) (hrec h)) found.
Proof.
  intros s h s1 R OK ST. pose proof (reach_wf _ R) as W. destruct (step_spec _ _ _ _ W OK ST) as [W1 E]. cbn [effect Z.eqb] in E.
  destruct E as (p & f0 & P & F0 & _ & _ & EFF). exists p. split; [exact P|]. intros l s2 i f junk filt keys nprim msk found w H P2 F2 KP LY SP NP LK EN.
  assert (SD : sabs s1 p (hpage h) (hrec h) = Some None). { rewrite EFF, Nat.eqb_refl. unfold eq2. rewrite !Nat.eqb_refl. reflexivity. }
  pose proof (hist_dead _ _ _ _ _ _ W1 H SD) as SD2. pose proof (hist_wf _ _ _ _ H W1) as W2. pose proof (fo_inv _ (wf_fok _ W2 i f F2)) as FI.
  destruct (kp_search_spec s2 p i f junk filt keys nprim msk (f_kp f) (gen_match (prim_fields (f_hdr f)) keys) W2 P2 F2 eq_refl NP (fun g GK E => gen_aims junk f keys nprim msk FI NP LY SP LK g GK ltac:(rewrite E; exact KP)) false) as (w' & E'). cbn [andb] in E'.
  rewrite (proj1 (enum_det _ _ _ _ _ E' _ _ EN)). apply (matching_dead s2 p); assumption.
Qed.
Print Assumptions c22_generic.

(** ** Concrete cases *)

(** Three keys: 20 bits, 12 bits of letters, 32 bits; one info key of 16 bits. *)
Definition three : list (Z * Z) := [(1, 19 * 2 ^ 19 + 19 * 2 ^ 14); (2, 31 * 2 ^ 19 + 11 * 2 ^ 14 + 32 * 2 ^ 8); (3, 63 * 2 ^ 19 + 31 * 2 ^ 14)].
Definition one_info : list (Z * Z) := [(4, 15 * 2 ^ 19 + 15 * 2 ^ 14)].
Definition gen_create : op := OpCreate (fun _ => 77) 0 10 false gen_kp three one_info 5.
Definition gen_file : sys := final [gen_create].
Definition empty_buf : buffer := mkbuf 40 0 0 0 0 0 (repeat 9 31).
Definition ini_buf (ks is : list Z) : buffer := match xdfini (s_w gen_file) zeros 10 empty_buf 3 ks 3 is 1 with Some (0, b) => b | _ => empty_buf end.
Definition gen_put (ks is : list Z) : op := OpPut (fun _ => 77) 10 0 (ini_buf ks is).
Definition gen_all (h : Z) (ks : list Z) : op := OpLoc zeros (fun _ => true) 10 h ks 3 None.
Definition gen_demo : list op :=
  [gen_create; gen_put [5; 0x61; 1000] [7]; gen_put [6; 0x61; 2000] [8]; gen_put [5; 0x62; 3000] [9];
   gen_all 0 [2 ^ 32 - 1; 0x61; 2 ^ 32 - 1]; gen_all 1 [2 ^ 32 - 1; 0x61; 2 ^ 32 - 1]; gen_all 1025 [2 ^ 32 - 1; 0x61; 2 ^ 32 - 1]; gen_all 0 [5; 2 ^ 32 - 1; 3000]].
Example c30_demo : reach (final gen_demo) /\ codes gen_demo = [0; 0; 0; 0; 1; 1025; -12; 2049].
Proof. split; [|vm_compute; reflexivity]. apply final_reach. unfold gen_demo. repeat (apply Forall_cons || apply Forall_nil); cbn; auto. Qed.
Example c30_demo_keys :
  match xdfprm (s_w (final gen_demo)) 1025, xdfhdr (s_w (final gen_demo)) (ini_buf [6; 0x61; 2000] [8]) 1 with
  | Some (Go (_, l, t, ks)), Some (Go (_, _, t', ks', is')) => Some (l, t, ks, t', ks', is')
  | _, _ => None
  end = Some (3, 3, [6; 0x41; 2000], 3, [6; 0x41; 2000], [8]).
Proof. vm_compute. reflexivity. Qed.
Example c30_demo_upd :
  match xdfupd (s_w (final gen_demo)) zeros 10 (ini_buf [6; 0x61; 2000] [8]) (-1) [2 ^ 32 - 1; 0x63; 2 ^ 32 - 1] 3 [11] 1 with
  | Some (0, b) => match xdfhdr (s_w (final gen_demo)) b 1 with Some (Go (_, _, t, ks, is)) => Some (t, ks, is) | _ => None end
  | _ => None
  end = Some (3, [6; 0x43; 2000], [11]).
Proof. vm_compute. reflexivity. Qed.
Example c30_demo_layout : match w_file (s_w (final gen_demo)) 1 with
  | Some f => key_layout (prim_fields (f_hdr f)) (2 * (f_plen f - 1)) /\ key_layout (info_fields (f_hdr f)) (2 * f_ilen f) /\ spans (prim_fields (f_hdr f)) (2 * (f_plen f - 1))
  | None => False end.
Proof.
  assert (X : match w_file (s_w (final gen_demo)) 1 with Some f => (prim_fields (f_hdr f), info_fields (f_hdr f), f_plen f, f_ilen f) | None => ([], [], 0, 0)%nat end =
    ([mkfield 0 12 20 false; mkfield 0 0 12 true; mkfield 1 0 32 false], [mkfield 0 16 16 false], 2, 1)%nat) by (vm_compute; reflexivity).
  destruct (w_file (s_w (final gen_demo)) 1) as [f|]; [|discriminate]. assert (P : prim_fields (f_hdr f) = [mkfield 0 12 20 false; mkfield 0 0 12 true; mkfield 1 0 32 false]) by congruence.
  assert (I : info_fields (f_hdr f) = [mkfield 0 16 16 false]) by congruence. assert (L : f_plen f = 2%nat) by congruence. assert (M : f_ilen f = 1%nat) by congruence. rewrite P, I, L, M.
  unfold key_layout, fits, apart_fields. split; [|split; [|split; reflexivity]].
  - split; [repeat constructor; cbn; lia|]. split; [|repeat constructor; cbn; lia].
    repeat (apply FOP_cons; [repeat (apply Forall_cons; [cbn; lia|]); apply Forall_nil|]). apply FOP_nil.
  - split; [repeat constructor; cbn; lia|]. split; [|repeat constructor; cbn; lia]. repeat (apply FOP_cons; [repeat (apply Forall_cons; [cbn; lia|]); apply Forall_nil|]). apply FOP_nil.
Qed.

(** When the keys do not span the key words (one key of 32 bits leaves the
    second key word of entries unused), records are missed: the search compares
    the unused word with that of the search keys (0), and in the second half of
    a directory page it is whatever memory held when the page was added. Of 129
    records with the same key, the search finds the first 128. *)
Definition lone : list (Z * Z) := [(1, 31 * 2 ^ 19 + 31 * 2 ^ 14)].
Definition lone_put : op := OpPut (fun _ => 77) 10 0 (mkbuf 40 192 0 0 10 0 ([2 ^ 24; 0; 5; 0; 1; 2] ++ repeat 7 34)).
Definition lone_loc (h : Z) : op := OpLoc zeros (fun _ => true) 10 h [5] 1 None.
Definition lone_demo : list op := [OpCreate (fun _ => 77) 0 10 false gen_kp lone [] 5] ++ repeat lone_put 129 ++ [lone_loc 0; lone_loc 129025; lone_loc 130049].
Theorem c21_generic_unspanned_refuted : reach (final lone_demo) /\ skipn 130 (codes lone_demo) = [1; 130049; ERR_NOT_FOUND] /\
  match xdfprm (s_w (final lone_demo)) 131073 with Some (Go (_, _, _, ks)) => ks | _ => [] end = [5].
Proof.
  split; [|split; vm_compute; reflexivity]. apply final_reach. unfold lone_demo. apply Forall_app. split; [apply Forall_cons; [right; reflexivity|constructor]|]. apply Forall_app. split; [|repeat constructor].
  apply Forall_forall. intros x X. apply repeat_spec in X. rewrite X. exact Logic.I.
Qed.
Print Assumptions c21_generic_unspanned_refuted.
