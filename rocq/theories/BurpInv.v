(** Layout of a report, and what the reading functions give. *)
From Coq Require Import ZArith List Lia Bool.
From Verif Require Import Bits BitIO CompactInt SpecPack Handles WaFile Xdf XdfLib XdfEnum XdfKeys XdfKeysThm XdfBuf XdfBufSpec XdfBufFacts Fst Burp BurpKeys BurpBuf BurpSpec BurpPack.
Import ListNotations.
Open Scope Z_scope.
Open Scope opt_scope.

(** ** Block headers *)
Lemma getf_parts hi mid lo s n : 0 <= s -> 0 <= n -> 0 <= mid < 2 ^ n -> 0 <= lo < 2 ^ s -> getf (hi * 2 ^ (s + n) + mid * 2 ^ s + lo) s n = mid.
Proof.
  intros S N M L. unfold getf. rewrite Z.pow_add_r by lia. replace (hi * (2 ^ s * 2 ^ n) + mid * 2 ^ s + lo) with ((hi * 2 ^ n + mid) * 2 ^ s + lo) by ring.
  rewrite Z.div_add_l by lia. rewrite (Z.div_small lo) by lia. rewrite Z.add_0_r, Z.add_comm, Z.mod_add by lia. apply Z.mod_small. lia.
Qed.
Lemma mk_hb_get nbit btyp bfd bit0 datyp nt e1 nval nele flag e3 e2 : let h := mk_hb nbit btyp bfd bit0 datyp nt e1 nval nele flag e3 e2 in
  hb_nbit h = nbit mod 2 ^ 5 /\ hb_btyp h = btyp mod 2 ^ 15 /\ hb_bfd h = bfd mod 2 ^ 12 /\ hb_bit0 h = bit0 mod 2 ^ 20 /\ hb_datyp h = datyp mod 2 ^ 4 /\ hb_nt h = nt mod 2 ^ 8 /\
  hb_elem1 h = e1 mod 2 ^ 16 /\ hb_nval h = nval mod 2 ^ 8 /\ hb_nele h = nele mod 2 ^ 7 /\ hb_flag h = flag mod 2 ^ 1 /\ hb_elem3 h = e3 mod 2 ^ 16 /\ hb_elem2 h = e2 mod 2 ^ 16.
Proof.
  intros h. unfold hb_nbit, hb_btyp, hb_bfd, hb_bit0, hb_datyp, hb_nt, hb_elem1, hb_nval, hb_nele, hb_flag, hb_elem3, hb_elem2, h, mk_hb. cbn [nth]. unfold putf.
  pose proof (Z.mod_pos_bound nbit (2 ^ 5) ltac:(lia)). pose proof (Z.mod_pos_bound btyp (2 ^ 15) ltac:(lia)). pose proof (Z.mod_pos_bound bfd (2 ^ 12) ltac:(lia)). pose proof (Z.mod_pos_bound bit0 (2 ^ 20) ltac:(lia)).
  pose proof (Z.mod_pos_bound datyp (2 ^ 4) ltac:(lia)). pose proof (Z.mod_pos_bound nt (2 ^ 8) ltac:(lia)). pose proof (Z.mod_pos_bound e1 (2 ^ 16) ltac:(lia)). pose proof (Z.mod_pos_bound nval (2 ^ 8) ltac:(lia)).
  pose proof (Z.mod_pos_bound nele (2 ^ 7) ltac:(lia)). pose proof (Z.mod_pos_bound flag (2 ^ 1) ltac:(lia)). pose proof (Z.mod_pos_bound e3 (2 ^ 16) ltac:(lia)). pose proof (Z.mod_pos_bound e2 (2 ^ 16) ltac:(lia)).
  set (a1 := nbit mod 2 ^ 5) in *. set (a2 := btyp mod 2 ^ 15) in *. set (a3 := bfd mod 2 ^ 12) in *. set (a4 := bit0 mod 2 ^ 20) in *. set (a5 := datyp mod 2 ^ 4) in *. set (a6 := nt mod 2 ^ 8) in *.
  set (a7 := e1 mod 2 ^ 16) in *. set (a8 := nval mod 2 ^ 8) in *. set (a9 := nele mod 2 ^ 7) in *. set (b1 := flag mod 2 ^ 1) in *. set (b2 := e3 mod 2 ^ 16) in *. set (b3 := e2 mod 2 ^ 16) in *.
  clearbody a1 a2 a3 a4 a5 a6 a7 a8 a9 b1 b2 b3. clear h.
  Ltac part hi lo := match goal with |- getf ?w ?s ?n = ?m => replace w with (hi * 2 ^ (s + n) + m * 2 ^ s + lo) by lia; apply getf_parts; lia end.
  split; [part (a3 * 2 ^ 15 + a2) 0|]. split; [part a3 a1|]. split; [part 0 (a2 * 2 ^ 5 + a1)|]. split; [part (a6 * 2 ^ 4 + a5) 0|]. split; [part a6 a4|]. split; [part 0 (a5 * 2 ^ 20 + a4)|].
  split; [part ((b1 * 2 ^ 7 + a9) * 2 ^ 8 + a8) 0|]. split; [part (b1 * 2 ^ 7 + a9) a7|]. split; [part b1 (a8 * 2 ^ 16 + a7)|]. split; [part 0 ((a9 * 2 ^ 8 + a8) * 2 ^ 16 + a7)|]. split; [part b3 0|part 0 b2].
Qed.
Lemma mk_hb_words nbit btyp bfd bit0 datyp nt e1 nval nele flag e3 e2 : words_ok (mk_hb nbit btyp bfd bit0 datyp nt e1 nval nele flag e3 e2).
Proof.
  unfold mk_hb, putf.
  pose proof (Z.mod_pos_bound nbit (2 ^ 5) ltac:(lia)). pose proof (Z.mod_pos_bound btyp (2 ^ 15) ltac:(lia)). pose proof (Z.mod_pos_bound bfd (2 ^ 12) ltac:(lia)). pose proof (Z.mod_pos_bound bit0 (2 ^ 20) ltac:(lia)).
  pose proof (Z.mod_pos_bound datyp (2 ^ 4) ltac:(lia)). pose proof (Z.mod_pos_bound nt (2 ^ 8) ltac:(lia)). pose proof (Z.mod_pos_bound e1 (2 ^ 16) ltac:(lia)). pose proof (Z.mod_pos_bound nval (2 ^ 8) ltac:(lia)).
  pose proof (Z.mod_pos_bound nele (2 ^ 7) ltac:(lia)). pose proof (Z.mod_pos_bound flag (2 ^ 1) ltac:(lia)). pose proof (Z.mod_pos_bound e3 (2 ^ 16) ltac:(lia)). pose proof (Z.mod_pos_bound e2 (2 ^ 16) ltac:(lia)).
  repeat constructor; lia.
Qed.

(** ** Layout *)
Definition listed (k : block) : nat := if large k then bk_nele k else (bk_nele k - 3)%nat.
Definition swap6 (x : Z) : Z := Z.lor (Z.shiftl (Z.land x 63) 6) (Z.land (Z.shiftr x 6) 63).
Record head_ok (off : nat) (h : list Z) (k : block) : Prop := mkho {
  ho_len : length h = 4%nat; ho_words : words_ok h; ho_dims : hb_dims h = (bk_nele k, bk_nval k, bk_nt k); ho_bit0 : hb_bit0 h = Z.of_nat off;
  ho_datyp : hb_datyp h = bk_datyp k; ho_nbit : hb_nbit h + 1 = Z.of_nat (bk_nbit k); ho_btyp : hb_btyp h = bk_btyp k; ho_bfam : swap6 (hb_bfd h) = bk_bfam k;
  ho_flag : (hb_flag h =? 0) = negb (large k); ho_listed : hb_listed h = listed k;
  ho_elems : large k = false -> firstn (Nat.min (bk_nele k) 3) [hb_elem1 h; hb_elem2 h; hb_elem3 h] = firstn 3 (bk_codes k) }.
Record blk_ok (k : block) : Prop := mkbo {
  bo_nele : (1 <= bk_nele k)%nat; bo_nval : (1 <= bk_nval k)%nat; bo_nt : (1 <= bk_nt k)%nat; bo_nbit : (1 <= bk_nbit k <= 32)%nat; bo_datyp : 2 <= bk_datyp k <= 9;
  bo_bad : bad_nbits (bk_datyp k) (bk_nbit k) = false; bo_codes : length (bk_codes k) = bk_nele k; bo_32 : 5 < bk_datyp k -> bk_nbit k = 32%nat }.
Definition bk_units (k : block) : nat := ((listed k * 16 + 63) / 64 + (bk_size k * bk_nbit k + 63) / 64)%nat.
(** The words of a block: elements, values. *)
Definition seg_ok (orc : oracle) (seg : list Z) (k : block) : Prop :=
  exists L V kd raw, seg = L ++ V /\ length L = nb_words (listed k) 16 /\ length V = nb_words (bk_size k) (bk_nbit k) /\ words_ok L /\ words_ok V /\
    seg_reads orc (Packed false) L (listed k) 16 (skipn (bk_nele k - listed k) (bk_codes k)) /\
    kind_of (bk_datyp k) = Some kd /\ seg_reads orc kd V (bk_size k) (bk_nbit k) raw /\ ((bk_datyp k =? 2) || (bk_datyp k =? 4) || (bk_datyp k =? 6) = true -> (bk_size k <= length raw)%nat) /\
    undo (bk_datyp k) (bk_nbit k) (bk_size k) raw = bk_vals k.
Record item := mkit { it_h : list Z; it_s : list Z; it_k : block }.
Definition heads (its : list item) : list Z := concat (map it_h its).
Definition segs (its : list item) : list Z := concat (map it_s its).
Definition blks (its : list item) : list block := map it_k its.
Definition units (its : list item) : nat := fold_right (fun i n => (bk_units (it_k i) + n)%nat) O its.
Fixpoint lay (orc : oracle) (off : nat) (its : list item) : Prop :=
  match its with
  | [] => True
  | i :: t => head_ok off (it_h i) (it_k i) /\ blk_ok (it_k i) /\ seg_ok orc (it_s i) (it_k i) /\ lay orc (off + bk_units (it_k i)) t
  end.
Lemma units_app a b : units (a ++ b) = (units a + units b)%nat.
Proof. induction a as [|i a IH]; [reflexivity|]. cbn [app units fold_right]. fold (units (a ++ b)) (units a). rewrite IH. lia. Qed.
Lemma lay_app orc a : forall off b, lay orc off (a ++ b) <-> lay orc off a /\ lay orc (off + units a) b.
Proof.
  induction a as [|i a IH]; intros off b; cbn [app lay units fold_right].
  - rewrite Nat.add_0_r. tauto.
  - fold (units a). rewrite IH. replace (off + bk_units (it_k i) + units a)%nat with (off + (bk_units (it_k i) + units a))%nat by lia. tauto.
Qed.
Lemma heads_app a b : heads (a ++ b) = heads a ++ heads b.
Proof. unfold heads. rewrite map_app, concat_app. reflexivity. Qed.
Lemma segs_app a b : segs (a ++ b) = segs a ++ segs b.
Proof. unfold segs. rewrite map_app, concat_app. reflexivity. Qed.
Lemma seg_length orc seg k : seg_ok orc seg k -> length seg = (2 * bk_units k)%nat.
Proof. intros (L & V & kd & raw & -> & A & B & _). rewrite app_length, A, B. unfold bk_units, nb_words. lia. Qed.
Lemma segs_length orc its : forall off, lay orc off its -> length (segs its) = (2 * units its)%nat.
Proof.
  induction its as [|i t IH]; intros off; [reflexivity|]. cbn [lay]. intros (_ & _ & S & R). unfold segs. cbn [map concat]. fold (segs t). rewrite app_length, (seg_length _ _ _ S), (IH _ R). cbn [units fold_right]. fold (units t). lia.
Qed.
Lemma heads_length orc its : forall off, lay orc off its -> length (heads its) = (4 * length its)%nat.
Proof.
  induction its as [|i t IH]; intros off; [reflexivity|]. cbn [lay]. intros (H & _ & _ & R). unfold heads. cbn [map concat]. fold (heads t). rewrite app_length, (ho_len _ _ _ H), (IH _ R). cbn [length]. lia.
Qed.
Lemma nb_units n b : nb_words n b = (2 * ((n * b + 63) / 64))%nat.
Proof. reflexivity. Qed.
Lemma bk_words_units k : bk_words k = (2 * bk_units k)%nat.
Proof. unfold bk_words, bk_units, even_words. fold (listed k). rewrite (Nat.mul_comm 16). lia. Qed.
Lemma total_units its : total_words (blks its) = (2 * units its)%nat.
Proof. induction its as [|i t IH]; [reflexivity|]. cbn [blks map total_words fold_right units]. fold (blks t) (total_words (blks t)) (units t). rewrite IH, bk_words_units. lia. Qed.

Record good (orc : oracle) (K : list Z) (r : report) (its : list item) : Prop := mkgood {
  gd_data : exists T, b_data (r_b r) = K ++ heads its ++ segs its ++ T /\ T <> [];
  gd_K : length K = 10%nat; gd_words : words_ok (b_data (r_b r)); gd_lay : lay orc 0 its;
  gd_didx : b_didx (r_b r) = 10; gd_ridx : b_ridx (r_b r) = 0; gd_nbits : b_nbits (r_b r) = 32 * Z.of_nat (10 + 4 * length its + 2 * units its);
  gd_nblk : r_nblk r = length its; gd_buf9 : r_buf9 r = (128 * length its)%nat;
  gd_size : 32 * Z.of_nat (length (b_data (r_b r))) < 2 ^ 32; gd_units : Z.of_nat (units its) < 2 ^ 20; gd_nwords : Z.of_nat (length (b_data (r_b r))) <= b_nwords (r_b r) }.

(** ** Reading *)
Lemma plain_reads orc h n b : length h = nb_words n b -> seg_reads orc Plain h n b h.
Proof. intros L A R dst W NR LD. cbn [fetch]. rewrite take_list by exact L. cbn [bind]. apply store_words. exact LD. Qed.
Lemma div64 a b : ((a * 64 + b * 128) mod 64 = 0)%nat.
Proof. replace (a * 64 + b * 128)%nat with (0 + (a + 2 * b) * 64)%nat by lia. rewrite Nat.mod_add by lia. reflexivity. Qed.
Lemma index_head b i : b_didx b = 10 -> index_word b (i * 128) = (10 + 4 * i)%nat.
Proof. intros D. unfold index_word. rewrite D. replace (i * 128)%nat with (4 * i * 32)%nat by lia. rewrite Nat.div_mul by lia. reflexivity. Qed.
Lemma index_body b u n : b_didx b = 10 -> index_word b (u * 64 + 128 * n) = (10 + 4 * n + 2 * u)%nat.
Proof. intros D. unfold index_word. rewrite D. replace (u * 64 + 128 * n)%nat with ((4 * n + 2 * u) * 32)%nat by lia. rewrite Nat.div_mul by lia. change (Z.to_nat 10) with 10%nat. lia. Qed.

(** The header of a block. *)
Lemma split_item orc K r its i it : good orc K r its -> nth_error its i = Some it ->
  exists a c T, its = a ++ it :: c /\ length a = i /\ lay orc 0 a /\ head_ok (units a) (it_h it) (it_k it) /\ blk_ok (it_k it) /\ seg_ok orc (it_s it) (it_k it) /\ lay orc (units a + bk_units (it_k it)) c /\
    b_data (r_b r) = K ++ heads a ++ it_h it ++ heads c ++ segs a ++ it_s it ++ segs c ++ T /\ T <> [] /\
    length (heads a) = (4 * i)%nat /\ length (heads c) = (4 * (length its - S i))%nat /\ length (segs a) = (2 * units a)%nat /\ length (segs c) = (2 * units c)%nat /\ (i < length its)%nat.
Proof.
  intros G E. destruct (nth_error_split _ _ E) as (a & c & EQ & LA). destruct (gd_data _ _ _ _ G) as (T & D & NT). pose proof (gd_lay _ _ _ _ G) as LY. rewrite EQ in LY. apply lay_app in LY. destruct LY as [L1 L2]. cbn [lay] in L2. destruct L2 as (HO & BO & SO & L2).
  exists a, c, T. rewrite Nat.add_0_l in *. split; [exact EQ|]. split; [exact LA|]. split; [exact L1|]. split; [exact HO|]. split; [exact BO|]. split; [exact SO|]. split; [exact L2|].
  split; [rewrite D, EQ, heads_app, segs_app; unfold heads at 2, segs at 2; cbn [map concat]; fold (heads c) (segs c); rewrite <- !app_assoc; reflexivity|]. split; [exact NT|].
  rewrite (heads_length _ _ _ L1), (heads_length _ _ _ L2), (segs_length _ _ _ L1), (segs_length _ _ _ L2), EQ, app_length, LA. cbn [length]. repeat split; lia.
Qed.
Lemma read_head orc K r its i it : good orc K r its -> nth_error its i = Some it -> xdfxtr orc 1 (r_b r) [0; 0; 0; 0] (i * 128) 4 32 0 = Some (0, it_h it).
Proof.
  intros G E. destruct (split_item _ _ _ _ _ _ G E) as (a & c & T & _ & _ & _ & HO & _ & _ & _ & D & NT & LA & _). pose proof (gd_K _ _ _ _ G) as LK.
  rewrite (xtr_list orc (r_b r) (i * 128) 4 32 0 Plain (K ++ heads a) (it_h it) (heads c ++ segs a ++ it_s it ++ segs c ++ T) [0; 0; 0; 0] (it_h it)); [rewrite skipn_all2 by (rewrite (ho_len _ _ _ HO); cbn; lia); rewrite app_nil_r; reflexivity|reflexivity|reflexivity| | | | | | |].
  - replace (i * 128)%nat with (0 + (2 * i) * 64)%nat by lia. rewrite Nat.mod_add by lia. reflexivity.
  - rewrite D, <- !app_assoc. reflexivity.
  - rewrite index_head by apply (gd_didx _ _ _ _ G). rewrite app_length, LK, LA. lia.
  - apply plain_reads. rewrite (ho_len _ _ _ HO). reflexivity.
  - apply (gd_words _ _ _ _ G).
  - intros X. apply app_eq_nil in X. destruct X as [_ X]. apply app_eq_nil in X. destruct X as [_ X]. apply app_eq_nil in X. destruct X as [_ X]. apply app_eq_nil in X. destruct X as [_ X]. auto.
  - rewrite (ho_len _ _ _ HO). cbn. lia.
Qed.
Lemma prm_good orc K r its i it : good orc K r its -> nth_error its i = Some it ->
  let k := it_k it in exists bit0, mrbprm orc 1 r (S i) = Some (0, mkprm (bk_nele k, bk_nval k, bk_nt k) (bk_bfam k) (bk_btyp k) (Z.of_nat (bk_nbit k)) bit0 (bk_datyp k)).
Proof.
  intros G E k. unfold mrbprm. replace ((S i - 1) * NBENTB)%nat with (i * 128)%nat by (unfold NBENTB; lia). rewrite (read_head _ _ _ _ _ _ G E). cbn [bind].
  destruct (split_item _ _ _ _ _ _ G E) as (a & c & T & _ & _ & _ & HO & _). fold k in HO. rewrite (ho_dims _ _ _ HO), (ho_btyp _ _ _ HO), (ho_nbit _ _ _ HO), (ho_datyp _ _ _ HO). fold (swap6 (hb_bfd (it_h it))). rewrite (ho_bfam _ _ _ HO). eauto.
Qed.
Lemma undo_length dt nb n raw : ((dt =? 2) || (dt =? 4) || (dt =? 6) = true -> (n <= length raw)%nat) -> length (undo dt nb n raw) = length raw.
Proof. intros L. unfold undo. destruct (_ || _); [|reflexivity]. specialize (L eq_refl). rewrite app_length, map_length, firstn_length, skipn_length. lia. Qed.
Lemma bad2_bad dt nb : bad_nbits dt nb = false -> dt <> 3 -> bad_nbits2 dt nb = false.
Proof. unfold bad_nbits, bad_nbits2. intros H N. rewrite (proj2 (Z.eqb_neq _ _) N) in *. exact H. Qed.

Lemma xtr_good orc K r its i it lst tbl : good orc K r its -> nth_error its i = Some it -> let k := it_k it in (bk_nele k <= length lst)%nat -> (length (bk_vals k) <= length tbl)%nat ->
  mrbxtr orc 1 r (S i) lst tbl = Some (0, bk_codes k ++ skipn (bk_nele k) lst, bk_vals k ++ skipn (length (bk_vals k)) tbl).
Proof.
  intros G E k LL LT. unfold mrbxtr. destruct (split_item _ _ _ _ _ _ G E) as (a & c & T & EQ & LA & _ & HO & BO & SO & _ & D & NT & LHA & LHC & LSA & LSC & LI). fold k in HO, BO, SO. pose proof (gd_K _ _ _ _ G) as LK.
  rewrite (gd_nblk _ _ _ _ G). rewrite (proj2 (Nat.ltb_ge (S i) 1)), (proj2 (Nat.ltb_ge (length its) (S i))) by lia. cbn [orb].
  replace (NBENTB * (S i - 1))%nat with (i * 128)%nat by (unfold NBENTB; lia). rewrite (read_head _ _ _ _ _ _ G E). cbn [bind]. cbn [Z.ltb Z.compare]. set (h := it_h it) in *. rewrite (ho_dims _ _ _ HO), (ho_flag _ _ _ HO), (ho_listed _ _ _ HO), (ho_datyp _ _ _ HO), (ho_nbit _ _ _ HO), (ho_bit0 _ _ _ HO), !Nat2Z.id.
  fold (bk_size k). rewrite (gd_buf9 _ _ _ _ G). set (n := length its) in *.
  set (inh := if negb (large k) then Nat.min (bk_nele k) 3 else 0%nat). assert (EI : (inh + listed k = bk_nele k)%nat) by (unfold inh, listed; destruct (large k); cbn [negb]; lia).
  set (ws := firstn inh [hb_elem1 h; hb_elem2 h; hb_elem3 h]). assert (EW : ws = firstn inh (bk_codes k)).
  { unfold ws, inh. destruct (large k) eqn:LG; cbn [negb]; [reflexivity|]. rewrite (ho_elems _ _ _ HO LG). rewrite <- (firstn_all2 (n := Nat.min (bk_nele k) 3) (firstn 3 (bk_codes k))) by (rewrite firstn_length, (bo_codes _ BO); lia). rewrite firstn_firstn. f_equal. lia. }
  assert (LW : length ws = inh) by (rewrite EW, firstn_length, (bo_codes _ BO); lia).
  rewrite store_words by (rewrite LW; lia). cbn [bind]. rewrite LW.
  assert (S1 : skipn inh (ws ++ skipn inh lst) = skipn inh lst) by (transitivity (skipn (length ws) (ws ++ skipn inh lst)); [rewrite LW; reflexivity|apply skipn_app_len]).
  assert (F1 : firstn inh (ws ++ skipn inh lst) = ws) by (transitivity (firstn (length ws) (ws ++ skipn inh lst)); [rewrite LW; reflexivity|apply firstn_app_len]).
  rewrite S1, F1.
  destruct SO as (L & V & kd & raw & ES & LL1 & LV1 & WL & WV & RL & KD & RV & LR & UN). rewrite ES in D.
  assert (STEP1 : (if (0 <? listed k)%nat then xdfxtr orc 1 (r_b r) (skipn inh lst) (units a * 64 + 128 * n) (listed k) 16 2 else Some (0, skipn inh lst)) = Some (0, skipn inh (bk_codes k) ++ skipn (bk_nele k) lst)).
  { assert (LC : length (skipn inh (bk_codes k)) = listed k) by (rewrite skipn_length, (bo_codes _ BO); lia).
    assert (EE : skipn (listed k) (skipn inh lst) = skipn (bk_nele k) lst) by (rewrite skipn_skipn'; f_equal; lia).
    destruct (Nat.ltb_spec 0 (listed k)) as [B|B].
    - replace (bk_nele k - listed k)%nat with inh in RL by lia.
      rewrite (xtr_list orc (r_b r) (units a * 64 + 128 * n) (listed k) 16 2 (Packed false) (K ++ heads a ++ h ++ heads c ++ segs a) L (V ++ segs c ++ T) (skipn inh lst) (skipn inh (bk_codes k))); [rewrite LC, EE; reflexivity|reflexivity|reflexivity| | | | | | |].
      + rewrite (Nat.mul_comm 128). apply div64.
      + rewrite D, <- !app_assoc. reflexivity.
      + rewrite index_body by apply (gd_didx _ _ _ _ G). rewrite !app_length, LK, LHA, LHC, LSA, (ho_len _ _ _ HO). fold n. lia.
      + exact RL.
      + apply (gd_words _ _ _ _ G).
      + intros X. apply app_eq_nil in X. destruct X as [_ X]. apply app_eq_nil in X. destruct X as [_ X]. auto.
      + rewrite LC, skipn_length. lia.
    - assert (listed k = 0)%nat as L0 by lia. rewrite (skipn_all2 (n := inh) (bk_codes k)) by (rewrite (bo_codes _ BO); lia). cbn [app]. do 2 f_equal. f_equal. lia. }
  rewrite STEP1. cbn [bind]. cbn [Z.ltb Z.compare]. rewrite EW, app_assoc, firstn_skipn.
  replace (units a * 64 + 128 * n + (listed k * 16 + 63) / 64 * 64)%nat with ((units a + (listed k * 16 + 63) / 64) * 64 + 128 * n)%nat by lia.
  rewrite (xtr_list orc (r_b r) ((units a + (listed k * 16 + 63) / 64) * 64 + 128 * n) (bk_size k) (bk_nbit k) (bk_datyp k) kd (K ++ heads a ++ h ++ heads c ++ segs a ++ L) V (segs c ++ T) tbl raw); [|exact KD|exact (bo_bad _ BO)| | | |exact RV|apply (gd_words _ _ _ _ G)| |].
  - cbn [bind]. cbn [Z.ltb Z.compare].
    assert (LVR : length (bk_vals k) = length raw) by (rewrite <- UN; apply undo_length, LR). rewrite LVR. rewrite <- UN. unfold undo.
    destruct ((bk_datyp k =? 2) || (bk_datyp k =? 4) || (bk_datyp k =? 6)); [|reflexivity]. specialize (LR eq_refl). unfold fix_missing. rewrite (proj2 (Nat.ltb_ge _ _)) by (rewrite app_length; lia). cbn [bind].
    rewrite firstn_app, skipn_app. replace (bk_size k - length raw)%nat with 0%nat by lia. cbn [firstn skipn]. rewrite app_nil_r, <- app_assoc. reflexivity.
  - rewrite (Nat.mul_comm 128). apply div64.
  - rewrite D, <- !app_assoc. reflexivity.
  - rewrite index_body by apply (gd_didx _ _ _ _ G). rewrite !app_length, LK, LHA, LHC, LSA, (ho_len _ _ _ HO), LL1. fold n. rewrite nb_units. lia.
  - intros X. apply app_eq_nil in X. destruct X as [_ X]. auto.
  - rewrite <- (undo_length (bk_datyp k) (bk_nbit k) (bk_size k) raw LR), UN. exact LT.
Qed.
Theorem good_shows orc K r its : good orc K r its -> shows orc r (blks its).
Proof.
  intros G. split; [rewrite (gd_nblk _ _ _ _ G); unfold blks; rewrite map_length; reflexivity|]. intros i k E. unfold blks in E. rewrite nth_error_map in E. destruct (nth_error its i) as [it|] eqn:EI; [|discriminate]. cbn [option_map] in E. assert (it_k it = k) as <- by congruence.
  split; [apply (prm_good _ _ _ _ _ _ G EI)|]. split; [|intros lst tbl A B; apply (xtr_good _ _ _ _ _ _ _ _ G EI A B)].
  destruct (split_item _ _ _ _ _ _ G EI) as (a & c & T & _ & _ & _ & _ & BO & _). apply (bo_codes _ BO).
Qed.
