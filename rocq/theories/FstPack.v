(** The data of a record of a standard file: what c_fstecr packs, and what
    c_fstluk unpacks of it. *)
From Coq Require Import ZArith List Lia Bool Reals.
From Flocq Require Import Core.
From Verif Require Import Bits BitIO BitIOFacts SpecPack SpecZfst CompactInt CompactIntMain CompactIntMain3 P_FloatPack P_FloatField FloatPack FloatField TileFacts ZfstLib ZfstFacts FstReal Fst FstSpec.
Import ListNotations.
Open Scope Z_scope.
Open Scope opt_scope.

(** ** Data type and number of bits *)
Definition choose2 (z : bool) (nbits ori : Z) : Z * Z * Z :=
  let in_datyp := Z.land ori 0xFFBF in
  let complex := Z.land in_datyp 0xF =? 8 in
  let missing := if complex then 0 else Z.land ori 64 in
  let in_datyp := if complex then 8 else in_datyp in
  let datyp := if in_datyp =? 801 then 1 else in_datyp in
  let to5 := (ori =? 133) && (32 <? nbits) in
  let in_datyp := if to5 then 5 else in_datyp in
  let datyp := if to5 then 5 else datyp in
  let e32 := (in_datyp =? 1) && ((nbits =? 31) || (nbits =? 32)) in
  let datyp := if e32 then 5 else datyp in
  let nbits := if e32 then 32 else nbits in
  let datyp := if z then 0 else datyp in
  let datyp := if (16 <? nbits) && negb (datyp =? 133) then Z.land datyp 0x7F else datyp in
  let '(datyp, nbits) := if (datyp =? 6) && (24 <? nbits) then (5, 32) else (datyp, nbits) in
  let datyp := if (datyp =? 6) && (16 <? nbits) then 1 else datyp in
  (missing, datyp, nbits).
Lemma choose_2 npak ori : choose npak ori = choose2 ((npak =? 0) || (npak =? 1)) (ask_nbits npak) ori.
Proof. reflexivity. Qed.
Definition valid2 (nbits ori : Z) : Z := if (Z.land ori 0xFFBF =? 1) && ((nbits =? 31) || (nbits =? 32)) then 32 else nbits.
Lemma valid_2 npak ori : valid_bits npak ori = valid2 (ask_nbits npak) ori.
Proof. reflexivity. Qed.
Lemma ask_asked npak : ask_nbits npak = asked_bits npak.
Proof.
  unfold ask_nbits, asked_bits. destruct (Z.eqb_spec npak 0) as [->|]; [reflexivity|]. destruct (Z.ltb_spec npak 0); [reflexivity|].
  destruct (Z.leb_spec npak 1) as [L|L]; [assert (npak = 1) as -> by lia; reflexivity|]. rewrite (Z.max_r 1 npak) by lia. reflexivity.
Qed.
(** The types modelled in the end. *)
Definition kept_type (datyp nbits : Z) : option Z :=
  if (datyp =? 0) || (datyp =? 128) then Some 0
  else if 32 <? nbits then None
  else if (datyp =? 1) || (datyp =? 129) then Some 1
  else if (datyp =? 2) || (datyp =? 130) then Some 2
  else if (datyp =? 4) || (datyp =? 132) then Some 4
  else if (datyp =? 5) && (nbits =? 32) then Some 5
  else if datyp =? 6 then Some 6 else None.
Definition compressed (datyp : Z) : bool := (datyp =? 129) || (datyp =? 130).
Definition choice_ok (z : bool) (nbits ori : Z) : bool :=
  let '(m, dt, nb) := choose2 z nbits ori in
  if negb (m =? 0) then true else
  match kept_type dt nb with
  | Some t => (t =? stored_type z nbits ori) && (nb =? stored_bits z nbits ori) && Bool.eqb (compressed dt) (negb z && compressed ori && (nb <=? 16)) &&
              (negb (compressed dt) || (dt =? 128 + t)) && Bool.eqb (dt =? 6) (t =? 6) && ((ori =? 6) || (128 <? ori) || (nb =? valid2 nbits ori)) && ((nb <=? 16) || negb (dt =? 6))
  | None => true
  end.
Lemma choice_all : forallb (fun ori => choice_ok true 32 ori && forallb (fun nb => choice_ok false nb ori) (map Z.of_nat (seq 1 64))) (map Z.of_nat (seq 0 256)) = true.
Proof. vm_compute. reflexivity. Qed.
Lemma choose_kept a dt nb t : 0 <= a_datyp a < 256 -> 1 <= ask_nbits (a_npak a) <= 64 -> choose (a_npak a) (a_datyp a) = (0, dt, nb) -> kept_type dt nb = Some t ->
  t = kind a /\ nb = width a /\ compressed dt = zips a /\ (zips a = true -> dt = 128 + t) /\ (dt = 6 <-> t = 6) /\
  (a_datyp a = 6 \/ 128 < a_datyp a \/ nb = valid_bits (a_npak a) (a_datyp a)) /\ (dt = 6 -> nb <= 16).
Proof.
  intros O B C K. rewrite choose_2 in C. pose proof choice_all as A. rewrite forallb_forall in A. specialize (A (a_datyp a)).
  assert (I : In (a_datyp a) (map Z.of_nat (seq 0 256))) by (apply in_map_iff; exists (Z.to_nat (a_datyp a)); rewrite in_seq; lia). apply A in I. clear A.
  apply andb_true_iff in I. destruct I as [I1 I2]. rewrite valid_2. unfold zips, kind, width. fold (plain (a_npak a)) in C. rewrite <- ask_asked.
  assert (X : choice_ok (plain (a_npak a)) (ask_nbits (a_npak a)) (a_datyp a) = true).
  { destruct (plain (a_npak a)) eqn:Z01.
    - assert (ask_nbits (a_npak a) = 32) as ->; [|exact I1]. unfold plain in Z01. apply orb_true_iff in Z01. rewrite !Z.eqb_eq in Z01. destruct Z01 as [-> | ->]; reflexivity.
    - rewrite forallb_forall in I2. apply I2. apply in_map_iff. exists (Z.to_nat (ask_nbits (a_npak a))). rewrite in_seq. lia. }
  unfold choice_ok in X. rewrite C in X. cbn [Z.eqb negb] in X. rewrite K in X. rewrite !andb_true_iff, !orb_true_iff, !Bool.eqb_true_iff, !Z.eqb_eq, Z.ltb_lt, Z.leb_le, !negb_true_iff in X.
  destruct X as ((((((X1 & X2) & X3) & X4) & X5) & X6) & X7). fold (compressed (a_datyp a)). rewrite <- X2. split; [exact X1|]. split; [reflexivity|]. split; [exact X3|].
  split; [intros Y; rewrite <- X3 in Y; destruct X4 as [X4|X4]; [congruence|exact X4]|]. split; [split; intros E; subst; [destruct (Z.eqb_spec (stored_type (plain (a_npak a)) (ask_nbits (a_npak a)) (a_datyp a)) 6); [assumption|discriminate]|rewrite E in X5; apply Z.eqb_eq; rewrite X5; reflexivity]|].
  split; [tauto|]. intros E. destruct X7 as [X7|X7]; [exact X7|]. subst dt. discriminate.
Qed.

(** ** Lists of words *)
Lemma words_firstn n l : words_ok l -> words_ok (firstn n l).
Proof. intros W. apply Forall_forall. intros x X. unfold words_ok in W. rewrite Forall_forall in W. apply W. rewrite <- (firstn_skipn n l). apply in_or_app. left. exact X. Qed.
Lemma words_skipn n l : words_ok l -> words_ok (skipn n l).
Proof. intros W. apply Forall_forall. intros x X. unfold words_ok in W. rewrite Forall_forall in W. apply W. rewrite <- (firstn_skipn n l). apply in_or_app. right. exact X. Qed.
Lemma words_zeros n : words_ok (repeat 0 n).
Proof. apply Forall_forall. intros x X. apply repeat_spec in X. subst x. split; [apply Z.le_refl|reflexivity]. Qed.
Lemma words_app x y : words_ok x -> words_ok y -> words_ok (x ++ y).
Proof. intros. apply Forall_app. auto. Qed.
Lemma slice_same m x y p q : firstn m x = firstn m y -> (p + q <= 32 * m)%nat -> slice p q (mbits 32 x) = slice p q (mbits 32 y).
Proof.
  intros E L. assert (G : forall l, slice p q (mbits 32 l) = slice p q (mbits 32 (firstn m l))).
  { intros l. rewrite mbits_firstn. unfold slice. rewrite skipn_firstn_comm, firstn_firstn, Nat.min_l by lia. reflexivity. }
  rewrite (G x), (G y), E. reflexivity.
Qed.
Lemma rd_same m (x y : list Z) i : firstn m x = firstn m y -> (i < m)%nat -> rd x i = rd y i.
Proof.
  intros E L. unfold rd. assert (G : forall l : list Z, nth_error l i = nth_error (firstn m l) i) by (intros l; rewrite WaFile.nth_firstn, (proj2 (Nat.ltb_lt i m) L); reflexivity). rewrite (G x), (G y), E. reflexivity.
Qed.

(** ** Packing and unpacking *)
Definition fits_as (t b : Z) (n : nat) (fld : list Z) : Prop :=
  (t = 2 -> forall j, (j < n)%nat -> elt fld 1 j < 2 ^ b) /\
  (t = 4 -> forall j, (j < n)%nat -> - 2 ^ (b - 1) <= as_int (elt fld 1 j) < 2 ^ (b - 1)) /\
  (t = 6 -> packable (firstn n fld)).
Definition reads_as (t b : Z) (n : nat) (fld dst dst' : list Z) : Prop :=
  if t =? 0 then
    let m := Z.to_nat ((Z.of_nat n * b + 31) / 32) in dst' = firstn m fld ++ skipn m dst
  else if (t =? 1) || (t =? 6) then updated dst dst' 1 n (elt dst' 1) /\ near_field t b n fld dst'
  else updated dst dst' 1 n (elt fld 1).
Definition legible_as (datyp dt b : Z) (n nk : nat) (fld : list Z) : Prop :=
  (dt = 129 -> b = 16 /\ nk = 1%nat) /\ (datyp = 130 -> dt = 130 /\ nk = 1%nat /\ forall j, (j < n)%nat -> elt fld 1 j < 2 ^ 15).
(** What is packed fits and can be read back from the [nw'] words written. *)
Record good (orc : oracle) (datyp b : Z) (ni nj nk : nat) (nw : Z) (fld : list Z) (t dt nw' : Z) (dat : list Z) : Prop := {
  g_len : length dat = (Z.to_nat nw + 128)%nat;
  g_words : words_ok dat;
  g_nw : 2 <= nw' <= nw;
  g_even : exists h, nw' = 2 * h;
  g_type : dt = t \/ compressed datyp = true /\ dt = datyp;
  g_read : let n := (ni * nj * nk)%nat in forall junk' src dst, words_ok src -> firstn (Z.to_nat nw') src = firstn (Z.to_nat nw') dat ->
    (Z.to_nat (luk_words dt (Z.of_nat n) (20 + nw')) + 2 <= length src)%nat -> (n <= length dst)%nat -> (Z.to_nat ((Z.of_nat n * b + 31) / 32) <= length dst)%nat ->
    fits_as t b n fld -> legible_as datyp dt b n nk fld ->
    exists d, unpack_field orc junk' dt b ni nj nk dst src = Some d /\ reads_as t b n fld dst d
}.
Definition reals_ok (t : Z) (n : nat) (fld : list Z) : Prop :=
  t = 1 -> forall j, (j < n)%nat -> number32 (elt fld 1 j) /\ (Rabs (ieee32 (elt fld 1 j)) <= IZR (10 ^ 38))%R.

Ltac dw H := unfold data_words in H; cbn [Z.eqb Pos.eqb] in H;
  match type of H with (if 2 ^ 31 <=? ?b + 63 then _ else _) = _ => destruct (Z.leb_spec (2 ^ 31) (b + 63)); [discriminate|] end.
Lemma field_prefix (fld dst src : list Z) n : (n <= length src)%nat -> (n <= length dst)%nat -> firstn n src = firstn n fld ->
  updated dst (firstn n src ++ skipn n dst) 1 n (elt fld 1).
Proof.
  intros L1 L2 E. assert (LF : length (firstn n src) = n) by (rewrite firstn_length; lia). split; [rewrite app_length, skipn_length; lia|]. split.
  - intros j J. rewrite Nat.mul_1_r. rewrite nth_error_app1 by lia. rewrite E, WaFile.nth_firstn, (proj2 (Nat.ltb_lt j n)) by lia. unfold elt. rewrite Nat.mul_1_r. apply nth_error_nth'.
    assert (length (firstn n fld) = n) by (rewrite <- E; exact LF). rewrite firstn_length in H. lia.
  - intros i I. assert (n <= i)%nat. { destruct (Nat.lt_ge_cases i n) as [C|C]; [|exact C]. exfalso. apply (I i C). lia. }
    rewrite nth_error_app2 by lia. rewrite LF, WaFile.nth_skipn. f_equal. lia.
Qed.

(** Data types 0 and 128: words. *)
Lemma good_words orc junk datyp b ni nj nk nw fld dt nw' dat : (datyp = 0 \/ datyp = 128) -> 1 <= b <= 64 -> (1 <= ni * nj * nk)%nat -> words_ok fld ->
  data_words datyp (Z.of_nat (ni * nj * nk)) b = Some nw -> pack_field orc junk datyp b ni nj nk nw fld (repeat 0 (Z.to_nat nw + 128)) = Some (dt, nw', dat) ->
  good orc datyp b ni nj nk nw fld 0 dt nw' dat.
Proof.
  intros DT B N1 W DW P. set (n := (ni * nj * nk)%nat) in *. assert (DW' : nw = 2 * ((Z.of_nat n * b + 120 + 63) / 64)) by (destruct DT as [-> | ->]; dw DW; congruence). clear DW.
  unfold pack_field in P. fold n in P. assert ((datyp =? 0) || (datyp =? 128) = true) as E by (destruct DT as [-> | ->]; reflexivity). rewrite E in P. clear E. cbv zeta in P.
  set (g := Z.to_nat ((Z.of_nat n * b + 31) / 32)) in *. destruct (Nat.ltb_spec (length fld) g) as [|L1]; [discriminate|]. destruct (Nat.ltb_spec (length (repeat 0 (Z.to_nat nw + 128))) g) as [|L2]; [discriminate|]. cbn [orb] in P.
  assert (ED : dat = firstn g fld ++ skipn g (repeat 0 (Z.to_nat nw + 128))) by congruence. assert (dt = 0) as -> by congruence. assert (nw' = nw) as -> by congruence. clear P. rewrite repeat_length in L2.
  assert (NB : 1 <= Z.of_nat n * b) by nia. set (x := Z.of_nat n * b) in *.
  assert (GW : (g <= Z.to_nat nw)%nat) by (unfold g; rewrite DW'; Z.div_mod_to_equations; lia).
  constructor.
  - rewrite ED, app_length, firstn_length, skipn_length, repeat_length. lia.
  - rewrite ED. apply words_app; [apply words_firstn; exact W|apply words_skipn, words_zeros].
  - rewrite DW'. Z.div_mod_to_equations; lia.
  - eexists. exact DW'.
  - left. reflexivity.
  - cbv zeta. fold n. fold x. fold g. intros junk' src dst WS FE LS LD1 LD2 _ _. unfold luk_words in LS. cbn [Z.eqb Z.ltb Z.compare] in LS.
    unfold unpack_field. fold n. cbn [Z.eqb]. cbv zeta. fold x. fold g. rewrite (proj2 (Nat.ltb_ge _ _)) by exact LD2. rewrite (proj2 (Nat.ltb_ge _ _)) by lia. cbn [orb].
    eexists. split; [reflexivity|]. unfold reads_as. cbn [Z.eqb]. cbv zeta. fold x. fold g. f_equal.
    transitivity (firstn g (firstn (Z.to_nat nw) src)); [rewrite firstn_firstn; f_equal; lia|]. rewrite FE, firstn_firstn, Nat.min_l by lia. rewrite ED.
    rewrite firstn_app, firstn_firstn, Nat.min_l by lia. rewrite firstn_length, Nat.min_l by lia. rewrite Nat.sub_diag, firstn_O. apply app_nil_r.
Qed.

(** Integers. *)
Lemma bit_same x y m i : firstn m x = firstn m y -> (i < 32 * m)%nat -> bit_at x i = bit_at y i.
Proof.
  intros E L. unfold bit_at. f_equal. assert (D : (i / 32 < m)%nat) by (apply Nat.div_lt_upper_bound; lia).
  rewrite <- (firstn_skipn m x), <- (firstn_skipn m y), E. destruct (Nat.lt_ge_cases (i / 32) (length (firstn m y))) as [C|C].
  - rewrite !app_nth1 by exact C. reflexivity.
  - assert (LX : length (firstn m x) = length (firstn m y)) by congruence. rewrite firstn_length in C. rewrite !firstn_length in LX.
    rewrite !(skipn_all2 (n := m)) by lia. reflexivity.
Qed.
Lemma unpack_same orc signed dst dst' pk src n b m : (1 <= b <= 32)%nat -> words_ok pk -> words_ok src -> fits dst 1 n ->
  firstn m pk = firstn m src -> (n * b <= 32 * m)%nat -> (n * b < 32 * length pk)%nat -> (n * b < 32 * length src)%nat ->
  compact_integer orc dst None pk n (Some b) 0 1 (if signed : bool then 4 else 2) = Some (mkci dst' None pk (Z.of_nat b)) ->
  compact_integer orc dst None src n (Some b) 0 1 (if signed then 4 else 2) = Some (mkci dst' None src (Z.of_nat b)).
Proof.
  intros B WP WS FT FE M L1 L2 C.
  destruct (unpack_value orc signed dst pk n b 0 1 B WP FT ltac:(lia) ltac:(lia)) as (d1 & E1 & U1).
  destruct (unpack_value orc signed dst src n b 0 1 B WS FT ltac:(lia) ltac:(lia)) as (d2 & E2 & U2).
  assert (dst' = d1) as -> by (rewrite E1 in C; congruence). rewrite E2. do 2 f_equal.
  assert (V : forall j, (j < n)%nat -> map (bit_at pk) (seq (0 + j * b) b) = map (bit_at src) (seq (0 + j * b) b)).
  { intros j J. apply map_ext_in. intros i I. apply in_seq in I. apply (bit_same _ _ m); [exact FE|]. nia. }
  destruct U1 as (A1 & A2 & A3), U2 as (B1 & B2 & B3). apply WaFile.nth_error_ext. intros i.
  destruct (Nat.lt_ge_cases i n) as [I|I].
  - specialize (A2 i I). specialize (B2 i I). rewrite Nat.mul_1_r in A2, B2. rewrite A2, B2, V by exact I. reflexivity.
  - rewrite A3, B3 by (intros j J; lia). reflexivity.
Qed.
Lemma good_ints orc junk (signed : bool) datyp b ni nj nk nw fld dt nw' dat : (if signed then datyp = 4 \/ datyp = 132 else datyp = 2) -> 1 <= b -> (1 <= ni * nj * nk)%nat -> words_ok fld -> (ni * nj * nk <= length fld)%nat ->
  data_words datyp (Z.of_nat (ni * nj * nk)) b = Some nw -> pack_field orc junk datyp b ni nj nk nw fld (repeat 0 (Z.to_nat nw + 128)) = Some (dt, nw', dat) ->
  good orc datyp b ni nj nk nw fld (if signed then 4 else 2) dt nw' dat.
Proof.
  intros DT B N1 W LF DW P. set (n := (ni * nj * nk)%nat) in *. assert (DW' : nw = 2 * ((Z.of_nat n * b + 120 + 63) / 64)) by (destruct signed; [destruct DT as [-> | ->]|subst datyp]; dw DW; congruence). clear DW.
  unfold pack_field in P. fold n in P. cbv zeta in P.
  assert (B2 : b <= 32). { destruct (Z.ltb_spec 32 b); [|assumption]. exfalso. destruct signed; [destruct DT as [-> | ->]|subst datyp]; cbn [Z.eqb Pos.eqb orb] in P; discriminate. }
  assert (P' : exists c, compact_integer orc fld None (repeat 0 (Z.to_nat nw + 128)) n (Some (Z.to_nat b)) 0 1 (if signed then 3 else 1) = Some c /\ dt = (if signed then 4 else 2) /\ nw' = nw /\ dat = ci_pk c).
  { rewrite (proj2 (Z.ltb_ge 32 b)) in P by exact B2. destruct signed; [destruct DT as [-> | ->]|subst datyp]; cbn [Z.eqb Pos.eqb orb] in P;
    (destruct (compact_integer _ _ _ _ _ _ _ _ _) as [c|]; [|discriminate]); cbn [bind] in P; exists c; repeat split; congruence. }
  clear P. destruct P' as (c & EC & -> & -> & ->).
  assert (NB : 1 <= Z.of_nat n * b) by nia. assert (BB : (1 <= Z.to_nat b <= 32)%nat) by lia. assert (BZ : Z.of_nat (Z.to_nat b) = b) by lia.
  assert (XN : Z.of_nat (n * Z.to_nat b) = Z.of_nat n * b) by nia.
  set (x := Z.of_nat n * b) in *. assert (XW : x + 120 <= 32 * nw) by (rewrite DW'; Z.div_mod_to_equations; lia).
  assert (NN : (n * Z.to_nat b < 32 * Z.to_nat nw)%nat) by lia.
  assert (FTS : fits fld 1 n) by (intros j J; lia).
  destruct (pack_frame orc signed fld (repeat 0 (Z.to_nat nw + 128)) n (Z.to_nat b) 0 1) as (pk & E & L1 & W1 & _); [exact BB|exact W|apply words_zeros|exact FTS|rewrite repeat_length; lia|].
  assert (c = mkci fld None pk (Z.of_nat (Z.to_nat b))) as -> by congruence. cbn [ci_pk]. rewrite repeat_length in L1.
  constructor.
  - exact L1.
  - exact W1.
  - rewrite DW'. Z.div_mod_to_equations; lia.
  - eexists. exact DW'.
  - left. reflexivity.
  - cbv zeta. fold n. fold x. intros junk' src dst WS FE LS LD1 LD2 (F2 & F4 & _) _.
    assert (LS' : (Z.to_nat nw <= length src)%nat) by (unfold luk_words in LS; destruct signed; cbn [Z.eqb Z.ltb Z.compare Pos.eqb Pos.compare Pos.compare_cont] in LS; lia).
    assert (FTD : fits dst 1 n) by (intros j J; lia).
    assert (R : exists d, compact_integer orc dst None pk n (Some (Z.to_nat b)) 0 1 (if signed then 4 else 2) = Some (mkci d None pk (Z.of_nat (Z.to_nat b))) /\ updated dst d 1 n (elt fld 1)).
    { destruct signed.
      - destruct (signed_roundtrip orc fld (repeat 0 (Z.to_nat nw + 128)) n (Z.to_nat b) 0 1 BB W (words_zeros _) FTS ltac:(lia) ltac:(rewrite repeat_length; lia)) as (pk' & EP & UP).
        { intros j J. replace (Z.of_nat (Z.to_nat b - 1)) with (b - 1) by lia. apply F4; [reflexivity|exact J]. }
        assert (pk' = pk) as -> by congruence. apply UP. exact FTD.
      - destruct (unsigned_roundtrip orc fld (repeat 0 (Z.to_nat nw + 128)) n (Z.to_nat b) 0 1 BB W (words_zeros _) FTS ltac:(lia) ltac:(rewrite repeat_length; lia)) as (pk' & EP & UP).
        { intros j J. rewrite BZ. apply F2; [reflexivity|exact J]. }
        assert (pk' = pk) as -> by congruence. apply UP. exact FTD. }
    destruct R as (d & ED & U). exists d. unfold unpack_field, reads_as. fold n.
    pose proof (unpack_same orc signed dst d pk src n (Z.to_nat b) (Z.to_nat nw) BB W1 WS FTD (eq_sym FE) ltac:(lia) ltac:(lia) ltac:(lia) ED) as EU.
    destruct signed; cbn [Z.eqb Pos.eqb orb]; cbv zeta; rewrite (proj2 (Z.ltb_ge 32 b)) by exact B2; rewrite EU; cbn [bind ci_unp]; (split; [reflexivity|exact U]).
Qed.

(** Data type 5: words of 32 bits. *)
Lemma good_ieee orc junk ni nj nk nw fld dt nw' dat : (1 <= ni * nj * nk)%nat -> words_ok fld -> (ni * nj * nk <= length fld)%nat ->
  data_words 5 (Z.of_nat (ni * nj * nk)) 32 = Some nw -> pack_field orc junk 5 32 ni nj nk nw fld (repeat 0 (Z.to_nat nw + 128)) = Some (dt, nw', dat) ->
  good orc 5 32 ni nj nk nw fld 5 dt nw' dat.
Proof.
  intros N1 W LF DW P. set (n := (ni * nj * nk)%nat) in *. assert (DW' : nw = 2 * ((Z.of_nat n * 32 + 120 + 63) / 64)) by (dw DW; congruence). clear DW.
  unfold pack_field in P. fold n in P. cbv zeta in P. change ((5 =? 0) || (5 =? 128)) with false in P. change (32 <? 32) with false in P. cbn [Z.eqb Pos.eqb orb andb] in P.
  assert (GW : (n <= Z.to_nat nw)%nat) by (rewrite DW'; Z.div_mod_to_equations; lia).
  rewrite (proj2 (Nat.ltb_ge _ _)) in P by exact LF. rewrite (proj2 (Nat.ltb_ge _ _)) in P by (rewrite repeat_length; lia). cbn [orb] in P.
  assert (ED : dat = firstn n fld ++ skipn n (repeat 0 (Z.to_nat nw + 128))) by congruence. assert (dt = 5) as -> by congruence. assert (nw' = nw) as -> by congruence. clear P.
  constructor.
  - rewrite ED, app_length, firstn_length, skipn_length, repeat_length. lia.
  - rewrite ED. apply words_app; [apply words_firstn; exact W|apply words_skipn, words_zeros].
  - rewrite DW'. Z.div_mod_to_equations; lia.
  - eexists. exact DW'.
  - left. reflexivity.
  - cbv zeta. fold n. intros junk' src dst WS FE LS LD1 LD2 _ _. assert (LS' : (Z.to_nat nw <= length src)%nat) by (unfold luk_words in LS; cbn [Z.eqb Z.ltb Z.compare Pos.eqb Pos.compare Pos.compare_cont] in LS; lia).
    unfold unpack_field. fold n. cbv zeta. change (32 <? 32) with false. cbn [Z.eqb Pos.eqb orb andb]. rewrite (proj2 (Nat.ltb_ge _ _)) by exact LD1. rewrite (proj2 (Nat.ltb_ge _ _)) by lia. cbn [orb].
    eexists. split; [reflexivity|]. unfold reads_as. cbn [Z.eqb Pos.eqb orb]. apply field_prefix; [lia|exact LD1|].
    transitivity (firstn n (firstn (Z.to_nat nw) src)); [rewrite firstn_firstn; f_equal; lia|]. rewrite FE, firstn_firstn, Nat.min_l by lia. rewrite ED.
    rewrite firstn_app, firstn_firstn, Nat.min_l by lia. rewrite firstn_length, Nat.min_l by lia. rewrite Nat.sub_diag, firstn_O. apply app_nil_r.
Qed.

(** Reals. *)
Lemma reals_packable n fld : (1 <= n)%nat -> (n <= length fld)%nat -> reals_ok 1 n fld -> packable_field None fld 1 n.
Proof.
  intros N1 L R. split; [intros j J; lia|]. split; [intros t T; discriminate|]. split; [intros j J; apply (R eq_refl j J)|]. split; [intros j J _; apply (R eq_refl j J)|]. exists 0%nat. split; [lia|]. intros C. exact C.
Qed.
Lemma read_reals orc b ni nj nk fld m m0 nw' : (1 <= ni * nj * nk)%nat -> (ni * nj * nk <= length fld)%nat -> reals_ok 1 (ni * nj * nk) fld -> 1 <= b <= 32 -> words_ok m0 ->
  120 + Z.of_nat (ni * nj * nk) * b <= 32 * nw' -> 4 <= nw' -> nw' + 1 <= Z.of_nat (length m0) ->
  compact_float_pack orc fld m0 0 3 24 (ni * nj * nk) (Z.to_nat b) 1 None = Some (FDone m) ->
  length m = length m0 /\ words_ok m /\
  forall src dst, words_ok src -> firstn (Z.to_nat nw') src = firstn (Z.to_nat nw') m -> (Z.to_nat nw' + 2 <= length src)%nat -> (ni * nj * nk <= length dst)%nat ->
    exists d, compact_float_unpack orc dst src 0 3 24 (ni * nj * nk) (Z.to_nat b) 1 None = Some (Some d) /\ reads_as 1 b (ni * nj * nk) fld dst d.
Proof.
  set (n := (ni * nj * nk)%nat). intros N1 LF RO B W0 NW1 NW4 LM P. assert (XN : Z.of_nat (Z.to_nat b * n) = Z.of_nat n * b) by nia.
  destruct (float_same orc fld m0 0 3 24 n (Z.to_nat b) (reals_packable n fld N1 LF RO) ltac:(lia)) as (m' & E & L & W & R); [split; [lia|split; [lia|left; lia]]|exact W0|].
  assert (m' = m) as -> by congruence. split; [exact L|]. split; [exact W|]. intros src dst WS FE LS LD.
  destruct (R dst) as (d & U & NR & EU); [intros j J; lia|]. exists d. split.
  - apply EU; [exact WS|lia|intros i I; apply (rd_same (Z.to_nat nw')); [exact FE|lia]|]. apply (slice_same (Z.to_nat nw')); [exact FE|lia].
  - unfold reads_as. cbn [Z.eqb Pos.eqb orb]. split; [exact U|]. intros lo hi BD j J. specialize (NR lo hi BD j J). unfold real_error. cbn [Z.eqb Pos.eqb]. rewrite Z2Nat.id in NR by lia. exact NR.
Qed.
Lemma good_reals orc junk b ni nj nk nw fld dt nw' dat : 1 <= b -> (1 <= ni * nj * nk)%nat -> words_ok fld -> (ni * nj * nk <= length fld)%nat -> reals_ok 1 (ni * nj * nk) fld ->
  data_words 1 (Z.of_nat (ni * nj * nk)) b = Some nw -> pack_field orc junk 1 b ni nj nk nw fld (repeat 0 (Z.to_nat nw + 128)) = Some (dt, nw', dat) ->
  good orc 1 b ni nj nk nw fld 1 dt nw' dat.
Proof.
  intros B N1 W LF RO DW P. set (n := (ni * nj * nk)%nat) in *. assert (DW' : nw = 2 * ((Z.of_nat n * b + 120 + 63) / 64)) by (dw DW; congruence). clear DW.
  unfold pack_field in P. fold n in P. cbv zeta in P. change ((1 =? 0) || (1 =? 128)) with false in P. cbv iota in P.
  destruct (Z.ltb_spec 32 b) as [|B2]; [discriminate|]. change (1 =? 1) with true in P. cbv iota in P.
  destruct (compact_float_pack _ _ _ _ _ _ _ _ _ _) as [fo|] eqn:CF; [|discriminate P]. destruct fo as [ | |m]; try discriminate P. cbn [float_packed bind] in P.
  assert (dat = m) as -> by congruence. assert (dt = 1) as -> by congruence. assert (nw' = nw) as -> by congruence. clear P.
  assert (NB : 1 <= Z.of_nat n * b) by nia. set (x := Z.of_nat n * b) in *. assert (NW1 : 120 + x <= 32 * nw /\ 4 <= nw) by (rewrite DW'; Z.div_mod_to_equations; lia). destruct NW1 as [NW1 NW4].
  destruct (read_reals orc b ni nj nk fld m (repeat 0 (Z.to_nat nw + 128)) nw N1 LF RO ltac:(lia) (words_zeros _) NW1 NW4 ltac:(rewrite repeat_length; lia) CF) as (LM & WM & R). rewrite repeat_length in LM.
  constructor; [exact LM|exact WM|lia|eexists; exact DW'|left; reflexivity|].
  cbv zeta. fold n. intros junk' src dst WS FE LS LD1 _ _ _. unfold luk_words in LS. cbn [Z.eqb Z.ltb Z.compare Pos.eqb Pos.compare Pos.compare_cont] in LS.
  destruct (R src dst WS FE ltac:(lia) LD1) as (d & EU & RD). exists d. split; [|exact RD]. unfold unpack_field. fold n. cbv zeta. change (1 =? 0) with false. cbv iota. rewrite (proj2 (Z.ltb_ge 32 b)) by exact B2. change (1 =? 1) with true. cbv iota. fold n in EU. rewrite EU. reflexivity.
Qed.

(** Data type 6. *)
Lemma list_bounds (ws : list Z) : exists lo hi : R, forall w, In w ws -> (lo <= ieee32 w <= hi)%R.
Proof.
  induction ws as [|v ws (lo & hi & IH)]; [exists 0%R, 0%R; intros w []|]. exists (Rmin lo (ieee32 v)), (Rmax hi (ieee32 v)). intros w [<-|I].
  - split; [apply Rmin_r|apply Rmax_r].
  - specialize (IH w I). split; [eapply Rle_trans; [apply Rmin_l|apply IH]|eapply Rle_trans; [apply IH|apply Rmax_l]].
Qed.
Lemma Forall2_len (P : Z -> Z -> Prop) l l' : Forall2 P l l' -> length l = length l'.
Proof. intros F. induction F; cbn [length]; congruence. Qed.
Lemma Forall2_nth (P : Z -> Z -> Prop) l l' d d' j : Forall2 P l l' -> (j < length l)%nat -> P (nth j l d) (nth j l' d').
Proof. intros F. revert j. induction F as [|x y l l' H F IH]; intros [|j] J; cbn [length nth] in *; try lia; [exact H|apply IH; lia]. Qed.
Lemma good_packer orc junk b ni nj nk nw fld dt nw' dat : 1 <= b <= 16 -> (1 <= ni * nj * nk)%nat -> words_ok fld -> (ni * nj * nk <= length fld)%nat ->
  data_words 6 (Z.of_nat (ni * nj * nk)) b = Some nw -> pack_field orc junk 6 b ni nj nk nw fld (repeat 0 (Z.to_nat nw + 128)) = Some (dt, nw', dat) ->
  good orc 6 b ni nj nk nw fld 6 dt nw' dat.
Proof.
  intros B N1 W LF DW P. set (n := (ni * nj * nk)%nat) in *. assert (DW' : nw = 2 * (((12 + 4 * ((Z.of_nat n + 1) / 2)) * 8 + 63) / 64)) by (dw DW; congruence). clear DW.
  unfold pack_field in P. fold n in P. cbv zeta in P. change ((6 =? 0) || (6 =? 128)) with false in P. cbv iota in P. rewrite (proj2 (Z.ltb_ge 32 b)) in P by lia. cbn [Z.eqb Pos.eqb orb andb] in P.
  rewrite (proj2 (Nat.ltb_ge _ _)) in P by exact LF. destruct (c_float_packer _ _ _) as [[[rc h] str]|] eqn:CP; [|discriminate]. cbn [bind] in P.
  destruct (packer_words _ _ _ _ _ _ B CP) as (LH & LS & WHS). assert (LFN : length (firstn n fld) = n) by (rewrite firstn_length; lia). rewrite LFN in LS.
  assert (HN : Z.of_nat ((n + 1) / 2) = (Z.of_nat n + 1) / 2) by (rewrite Nat2Z.inj_div; f_equal; lia). set (g := ((n + 1) / 2)%nat) in *. clearbody g. rewrite <- HN in DW'.
  assert (LHS : length (h ++ str) = (3 + g)%nat) by (rewrite app_length; lia). rewrite LHS in P.
  assert (NWB : 96 + 32 * Z.of_nat g <= 32 * nw /\ 32 * nw <= 96 + 32 * Z.of_nat g + 63) by (split; rewrite DW'; Z.div_mod_to_equations; lia).
  rewrite (proj2 (Nat.ltb_ge _ _)) in P by (rewrite repeat_length; lia).
  assert (ED : dat = h ++ str ++ skipn (3 + g) (repeat 0 (Z.to_nat nw + 128))) by congruence. assert (dt = 6) as -> by congruence. assert (nw' = nw) as -> by congruence. clear P.
  constructor.
  - rewrite ED, app_assoc, app_length, LHS, skipn_length, repeat_length. lia.
  - rewrite ED, app_assoc. apply words_app; [exact WHS|apply words_skipn, words_zeros].
  - lia.
  - eexists. exact DW'.
  - left. reflexivity.
  - cbv zeta. fold n. intros junk' src dst WS FE LSR LD1 _ (_ & _ & F6) _. specialize (F6 eq_refl). unfold luk_words in LSR. cbn [Z.eqb Pos.eqb] in LSR.
    assert (LSR' : (3 + g + 1 <= length src)%nat). { assert (0 <= (Z.of_nat n * 16 + 32 + 31) / 32) by (apply Z.div_pos; lia). assert (g <= Z.to_nat ((Z.of_nat n * 16 + 32 + 31) / 32))%nat; [|lia]. rewrite <- (Nat2Z.id g), HN. apply Z2Nat.inj_le; [Z.div_mod_to_equations; lia|assumption|]. Z.div_mod_to_equations; lia. }
    assert (ES : exists next more, src = h ++ (str ++ [next]) ++ more).
    { assert (FP : firstn (3 + g) src = h ++ str).
      { transitivity (firstn (3 + g) (firstn (Z.to_nat nw) src)); [rewrite firstn_firstn; f_equal; lia|]. rewrite FE, firstn_firstn, Nat.min_l by lia. rewrite ED, app_assoc. rewrite <- LHS at 1. rewrite firstn_app, Nat.sub_diag, firstn_O, app_nil_r. apply firstn_all. }
      destruct (skipn (3 + g) src) as [|next more] eqn:SK; [apply (f_equal (@length Z)) in SK; rewrite skipn_length in SK; cbn [length] in SK; lia|].
      exists next, more. rewrite <- (firstn_skipn (3 + g) src), FP, SK. rewrite <- !app_assoc. reflexivity. }
    destruct ES as (next & more & ES). destruct (list_bounds (firstn n fld)) as (lo0 & hi0 & B0).
    destruct (c47_error (junk 0%nat) (firstn n fld) b next lo0 hi0 F6 B B0) as (h' & str' & xs & CP' & _ & _ & UN & FA).
    assert (h' = h /\ str' = str) as [-> ->] by (split; congruence). pose proof (Forall2_len _ _ _ FA) as LX. rewrite LFN in LX.
    exists (xs ++ skipn n dst). unfold unpack_field. fold n. cbv zeta. change (6 =? 0) with false. cbv iota. rewrite (proj2 (Z.ltb_ge 32 b)) by lia. cbn [Z.eqb Pos.eqb orb andb]. rewrite (proj2 (Nat.ltb_ge _ _)) by exact LD1.
    assert (SK3 : skipn 3 src = (str ++ [next]) ++ more). { rewrite ES. rewrite <- LH at 1. rewrite skipn_app, Nat.sub_diag, skipn_all. reflexivity. }
    rewrite SK3. rewrite LFN in UN. rewrite ES at 1. rewrite (unpacker_more _ _ _ _ ((str ++ [next]) ++ more) more LH UN). cbn [bind]. rewrite <- LX. split; [reflexivity|].
    assert (EL : forall j, (j < n)%nat -> elt (xs ++ skipn n dst) 1 j = nth j xs 0) by (intros j J; unfold elt; rewrite Nat.mul_1_r; apply app_nth1; lia).
    unfold reads_as. cbn [Z.eqb Pos.eqb orb]. rewrite LX. rewrite LX in EL. split.
    + split; [rewrite app_length, skipn_length; lia|]. split.
      * intros j J. rewrite Nat.mul_1_r. unfold elt. rewrite Nat.mul_1_r. apply nth_error_nth'. rewrite app_length. lia.
      * intros i I. assert (n <= i)%nat. { destruct (Nat.lt_ge_cases i n) as [C|C]; [|exact C]. exfalso. apply (I i ltac:(lia)). lia. }
        rewrite nth_error_app2 by lia. rewrite WaFile.nth_skipn. f_equal. lia.
    + intros lo hi BD j J. rewrite EL by lia. assert (EF : forall k, (k < n)%nat -> nth k (firstn n fld) 0 = elt fld 1 k) by (intros k K; unfold elt; rewrite Nat.mul_1_r; apply firstn_nth_lt; exact K).
      destruct (c47_error (junk 0%nat) (firstn n fld) b next lo hi F6 B) as (h2 & str2 & xs2 & CP2 & _ & _ & UN2 & FA2).
      { intros w I. apply (In_nth _ _ 0) in I as (k & K & <-). rewrite LFN in K. rewrite EF by exact K. apply BD. lia. }
      assert (h2 = h /\ str2 = str) as [-> ->] by (split; congruence). rewrite LFN in UN2. assert (xs2 = xs) as -> by congruence.
      pose proof (Forall2_nth _ _ _ 0 0 j FA2 ltac:(lia)) as Q. cbv beta in Q. rewrite EF in Q by lia. unfold real_error. cbn [Z.eqb Pos.eqb]. exact Q.
Qed.

(** Compressed fields. *)
Lemma fresh_words junk n : words_ok (fresh junk n) /\ length (fresh junk n) = n.
Proof.
  unfold fresh. split; [|rewrite map_length; apply seq_length]. apply Forall_forall. intros x X. apply in_map_iff in X as (i & <- & _). apply Z.mod_pos_bound. lia.
Qed.
Lemma fresh16_words junk n : words16 (fresh16 junk n) /\ length (fresh16 junk n) = n.
Proof.
  unfold fresh16. split; [|rewrite map_length; apply seq_length]. apply Forall_forall. intros x X. apply in_map_iff in X as (i & <- & _). apply Z.mod_pos_bound. lia.
Qed.
Lemma compress_result orc swap g fld ni nj nk b len z : words_ok fld -> armn_compress orc false swap g fld ni nj nk b = Some (len, z) ->
  (len = -1 /\ z = fld) \/ (0 <= len /\ ni <> 1%nat /\ nj <> 1%nat).
Proof.
  intros W E. destruct (Z.eq_dec len (-1)) as [->|N]; [left; split; [reflexivity|]; eapply compress_fail; eauto|]. right.
  pose proof (compress_size _ _ _ _ _ _ _ _ _ _ _ W E N). split; [lia|]. unfold armn_compress in E. destruct (Nat.eqb_spec ni 1); [rewrite orb_true_r in E; cbn [orb] in E; congruence|]. destruct (Nat.eqb_spec nj 1); [rewrite orb_true_r in E; congruence|]. auto.
Qed.
Lemma firstn_sub {A} (x y : list A) m k : firstn m x = firstn m y -> (k <= m)%nat -> firstn k x = firstn k y.
Proof. intros E L. transitivity (firstn k (firstn m x)); [rewrite firstn_firstn, Nat.min_l by exact L; reflexivity|]. rewrite E, firstn_firstn, Nat.min_l by exact L. reflexivity. Qed.
Lemma skipn_sub {A} (x y : list A) k p : firstn (k + p) x = firstn (k + p) y -> firstn p (skipn k x) = firstn p (skipn k y).
Proof. intros E. assert (G : forall l : list A, firstn p (skipn k l) = skipn k (firstn (k + p) l)) by (intros l; rewrite skipn_firstn_comm; f_equal; lia). rewrite !G, E. reflexivity. Qed.
Lemma slice_words k p l : slice (32 * k) p (mbits 32 l) = slice 0 p (mbits 32 (skipn k l)).
Proof. rewrite mbits_skipn. reflexivity. Qed.

Lemma good_zreals orc junk b ni nj nk nw fld dt nw' dat : 1 <= b <= 16 -> (1 <= ni)%nat -> (1 <= nj)%nat -> (1 <= nk)%nat -> words_ok fld -> (ni * nj * nk <= length fld)%nat -> reals_ok 1 (ni * nj * nk) fld ->
  data_words 129 (Z.of_nat (ni * nj * nk)) b = Some nw -> pack_field orc junk 129 b ni nj nk nw fld (repeat 0 (Z.to_nat nw + 128)) = Some (dt, nw', dat) ->
  good orc 129 b ni nj nk nw fld 1 dt nw' dat.
Proof.
  intros B I1 J1 K1 W LF RO DW P. assert (N1 : (1 <= ni * nj * nk)%nat) by nia. assert (NIJ : (ni * nj <= ni * nj * nk)%nat) by nia. set (n := (ni * nj * nk)%nat) in *.
  assert (DW' : nw = 2 * ((Z.of_nat n * 16 + 128 + 32 + 63) / 64) /\ Z.of_nat n * 16 + 223 < 2 ^ 31). { unfold data_words in DW. change (129 =? 6) with false in DW. change (129 =? 129) with true in DW. cbv iota in DW. rewrite (Z.max_r b 16) in DW by lia. destruct (Z.leb_spec (2 ^ 31) (Z.of_nat n * 16 + 128 + 32 + 63)); [discriminate|]. split; [congruence|lia]. }
  clear DW. destruct DW' as [DW' N31]. assert (NWB : 16 * Z.of_nat n + 160 <= 32 * nw <= 16 * Z.of_nat n + 223) by (split; rewrite DW'; Z.div_mod_to_equations; lia).
  unfold pack_field in P. fold n in P. cbv zeta in P. change ((129 =? 0) || (129 =? 128)) with false in P. cbv iota in P. rewrite (proj2 (Z.ltb_ge 32 b)) in P by lia. change (129 =? 1) with false in P. change (129 =? 129) with true in P. cbv iota in P.
  rewrite (Nat.max_l 16 (Z.to_nat b)) in P by lia.
  destruct (float_wide orc fld (repeat 0 (Z.to_nat nw + 128)) n (Z.to_nat b) (reals_packable n fld N1 LF RO) ltac:(lia) ltac:(rewrite repeat_length; lia) (words_zeros _) ltac:(lia)) as (m & ts & EM & LM & WM & LT & RT & ST).
  rewrite EM in P. cbn [float_packed bind] in P. rewrite repeat_length in LM.
  assert (WSK : words_ok (skipn 5 m)) by (apply words_skipn; exact WM).
  assert (LSK : length (skipn 5 m) = (Z.to_nat nw + 123)%nat) by (rewrite skipn_length; lia).
  destruct (armn_compress _ _ _ _ _ _ _ _ _) as [[len z]|] eqn:AC; [|discriminate]. cbn [bind] in P.
  destruct (compress_result _ _ _ _ _ _ _ _ _ _ WSK AC) as [[-> ->]|(LEN & NI & NJ)].
  - (* not compressed *)
    change (-1 <? 0) with true in P. cbv iota in P. rewrite firstn_skipn in P.
    destruct (compact_float_pack orc fld m _ _ _ _ _ _ _) as [fo|] eqn:CF; [|discriminate]. destruct fo as [ | |m2]; try discriminate P. cbn [float_packed bind] in P.
    assert (dat = m2) as -> by congruence. assert (dt = 1) as -> by congruence. assert (nw' = nw) as -> by congruence. clear P.
    assert (NB : Z.of_nat n * b <= 16 * Z.of_nat n) by nia.
    destruct (read_reals orc b ni nj nk fld m2 m nw N1 LF RO ltac:(lia) WM ltac:(fold n; lia) ltac:(lia) ltac:(lia) CF) as (LM2 & WM2 & R).
    constructor; [lia|exact WM2|lia|eexists; exact DW'|left; reflexivity|].
    cbv zeta. fold n. intros junk' src dst WS FE LS LD1 _ _ _. unfold luk_words in LS. cbn [Z.eqb Z.ltb Z.compare Pos.eqb Pos.compare Pos.compare_cont] in LS.
    destruct (R src dst WS FE ltac:(lia) LD1) as (d & EU & RD). exists d. split; [|exact RD]. unfold unpack_field. fold n. cbv zeta. change (1 =? 0) with false. cbv iota. rewrite (proj2 (Z.ltb_ge 32 b)) by lia. change (1 =? 1) with true. cbv iota. fold n in EU. rewrite EU. reflexivity.
  - (* compressed *)
    rewrite (proj2 (Z.ltb_ge len 0)) in P by lia.
    assert (P16 : 2 ^ Z.of_nat (Z.to_nat b) <= 2 ^ 16) by (apply Z.pow_le_mono_r; lia).
    assert (TK : forall k, (k < n)%nat -> tok16 true (skipn 5 m) k = nth k ts 0).
    { apply tokens_read; [exact WSK|exact LT|intros t T; specialize (RT t T); lia|lia|]. rewrite <- (slice_words 5). exact ST. }
    destruct (fresh_words junk n) as [WG LG].
    destruct (compress_lossless_words orc false true (fresh junk n) (skipn 5 m) ni nj nk (Z.to_nat b)) as (len' & z' & AC' & LZ & WZ & DZ); [lia|lia|lia|lia|fold n; lia|exact WSK|exact WG|exact LG| | |].
    { fold n. assert (n / 2 <= n)%nat by (apply Nat.div_le_upper_bound; lia). pose proof (Nat.div_mod n 2 ltac:(lia)). lia. }
    { intros k K. rewrite TK by lia. apply RT. apply nth_In. lia. }
    assert (len' = len /\ z' = z) as [-> ->] by (split; congruence). destruct (DZ ltac:(lia)) as (p & PL & UZ). clear DZ AC'.
    pose proof (compress_size _ _ _ _ _ _ _ _ _ _ _ WSK AC ltac:(lia)) as (LEN2 & _). fold n in LEN2.
    destruct m as [|w0 m']; [cbn [length] in LM; lia|]. change (firstn 5 (w0 :: m')) with (w0 :: firstn 4 m') in P. change (wr ((w0 :: firstn 4 m') ++ z) 0 (bytes_words (16 + len))) with (Some (bytes_words (16 + len) :: (firstn 4 m' ++ z))) in P. cbn [bind] in P.
    assert (EN : nw' = bytes_words (16 + len)) by congruence. rewrite <- EN in P. assert (ED : dat = nw' :: firstn 4 m' ++ z) by congruence. assert (dt = 129) as -> by congruence. clear P.
    unfold bytes_words in EN. assert (NB1 : 5 + Z.of_nat p <= nw' <= nw) by (split; rewrite EN, ?DW', ?PL; [|rewrite PL in LEN2]; Z.div_mod_to_equations; lia).
    assert (L4 : length (firstn 4 m') = 4%nat) by (rewrite firstn_length; cbn [length] in LM; lia).
    constructor.
    + rewrite ED. cbn [length]. rewrite app_length, L4, LZ, LSK. lia.
    + rewrite ED. apply Forall_cons; [lia|]. apply words_app; [|exact WZ]. apply words_firstn. inversion WM; assumption.
    + lia.
    + eexists. exact EN.
    + right. split; reflexivity.
    + cbv zeta. fold n. intros junk' src dst WS FE LS LD1 _ _ (L129 & _). destruct (L129 eq_refl) as [B16 NK]. subst b nk. assert (n = ni * nj)%nat as EQN by (unfold n; lia).
      unfold luk_words in LS. change (129 =? 6) with false in LS. change (128 <? 129) with true in LS. cbv iota in LS.
      assert (LS' : (5 + 1 + n / 2 + n / 2 + 1 <= length src)%nat \/ (5 + 1 + n / 2 <= length src)%nat) by (right; apply Nat.le_trans with (2 := LS); assert (HN2 : Z.of_nat (n / 2) = Z.of_nat n / 2) by apply Nat2Z.inj_div; assert (0 <= (Z.of_nat n * 16 + 32 + 31) / 32) by (apply Z.div_pos; lia); assert (Z.of_nat n / 2 <= (Z.of_nat n * 16 + 32 + 31) / 32) by (Z.div_mod_to_equations; lia); lia).
      assert (LS2 : (5 + 1 + n / 2 <= length src)%nat) by lia. clear LS'.
      assert (N2 : (2 * (n / 2) <= n < 2 * (n / 2) + 2)%nat) by (pose proof (Nat.div_mod n 2 ltac:(lia)); pose proof (Nat.mod_upper_bound n 2 ltac:(lia)); lia).
      assert (LSP : (Z.to_nat nw' < length src)%nat) by (assert (32 * ((Z.of_nat n * 16 + 32 + 31) / 32) > Z.of_nat n * 16 + 31) by (Z.div_mod_to_equations; lia); lia).
      destruct (fresh16_words junk' (2 * (ni * nj))) as [WG16 LG16]. destruct (fresh_words junk' (ni * nj)) as [_ LGT].
      destruct (UZ orc (fresh16 junk' (2 * (ni * nj))) (fresh junk' (ni * nj)) (skipn 5 src)) as (mem' & AU & LMEM & WMEM & TMEM & _); [apply words_skipn; exact WS| | | |exact WG16|exact LG16|exact LGT|].
      { rewrite skipn_length. lia. }
      { transitivity (firstn p (skipn 5 dat)); [apply skipn_sub; apply (firstn_sub _ _ (Z.to_nat nw')); [exact FE|lia]|]. rewrite ED. change (skipn 5 (nw' :: firstn 4 m' ++ z)) with (skipn 4 (firstn 4 m' ++ z)). rewrite <- L4 at 1. rewrite skipn_app, Nat.sub_diag, skipn_all. reflexivity. }
      { rewrite skipn_length, <- EQN. lia. }
      destruct (float_same orc fld (repeat 0 (Z.to_nat nw + 128)) 1 5 0 n 16 (reals_packable n fld N1 LF RO) ltac:(lia)) as (m2 & E2 & _ & _ & R); [split; [rewrite repeat_length; lia|split; [rewrite repeat_length; lia|right; right; split; [lia|left; lia]]]|apply words_zeros|].
      rewrite <- float_wide16 in E2. change (Z.to_nat 16) with 16%nat in *. assert (m2 = w0 :: m') as -> by congruence.
      destruct (R dst) as (d & U & NR & EU); [intros j J; lia|]. exists d.
      assert (F5 : firstn 5 src = nw' :: firstn 4 m'). { rewrite (firstn_sub src dat (Z.to_nat nw') 5 FE) by lia. rewrite ED. change (firstn 5 (nw' :: firstn 4 m' ++ z)) with (nw' :: firstn 4 (firstn 4 m' ++ z)). f_equal. rewrite <- L4 at 1. rewrite firstn_app, Nat.sub_diag, firstn_O, app_nil_r. apply firstn_all. }
      split.
      * unfold unpack_field. fold n. cbv zeta. change (129 =? 0) with false. cbv iota. change (32 <? 16) with false. change (129 =? 1) with false. change (129 =? 129) with true. cbv iota. change (Z.to_nat 16) with 16%nat. rewrite AU. cbn [bind].
        rewrite (float_unpack_size orc dst _ 1 5 0 n (16 + 64 * Nat.max 16 16) 16) by (cbn; lia). rewrite EU; [reflexivity| | | |].
        -- apply words_app; [apply words_firstn; exact WS|exact WMEM].
        -- rewrite app_length, firstn_length, LMEM, skipn_length. lia.
        -- intros i I. rewrite F5. cbn [app]. change (1 + i)%nat with (S i). unfold rd. cbn [nth_error]. rewrite nth_error_app1 by lia. rewrite WaFile.nth_firstn. rewrite (proj2 (Nat.ltb_lt i 4)) by lia. reflexivity.
        -- change (32 * 5 + 0)%nat with (32 * 5)%nat. rewrite !slice_words. rewrite skipn_app, firstn_length, Nat.min_l by lia. rewrite Nat.sub_diag. rewrite (skipn_all2 (firstn 5 src)) by (rewrite firstn_length; lia). cbn [app]. change (skipn 0 mem') with mem'.
           rewrite !first_tokens; [|rewrite LSK; lia|rewrite LMEM, skipn_length; lia]. f_equal. apply map_ext_in. intros k K. apply in_seq in K. apply TMEM. lia.
      * unfold reads_as. cbn [Z.eqb Pos.eqb orb]. split; [exact U|]. intros lo hi BD j J. specialize (NR lo hi BD j J). unfold real_error. cbn [Z.eqb Pos.eqb]. exact NR.
Qed.

Lemma words_of_words u m : length u = (2 * m)%nat -> words16 u -> length (words_of u) = m /\ words_ok (words_of u) /\ forall k, (k < 2 * m)%nat -> tok16 false (words_of u) k = nth k u 0.
Proof.
  intros L W. destruct (words_of_spec u m L) as [LW NW]. split; [exact LW|].
  assert (R : forall k, 0 <= nth k u 0 < 2 ^ 16).
  { intros k. destruct (Nat.lt_ge_cases k (length u)) as [C|C]; [|rewrite nth_overflow by exact C; lia]. unfold words16 in W. rewrite Forall_forall in W. apply W, nth_In, C. }
  split.
  - apply Forall_forall. intros w I. apply (In_nth _ _ 0) in I as (i & I & <-). rewrite NW by lia. pose proof (R (2 * i)%nat). pose proof (R (2 * i + 1)%nat). unfold el. lia.
  - intros k K. unfold tok16. assert (K2 : (k / 2 < m)%nat) by (apply Nat.div_lt_upper_bound; lia). rewrite NW by exact K2. unfold el. pose proof (R (2 * (k / 2))%nat) as R1. pose proof (R (2 * (k / 2) + 1)%nat) as R2.
    destruct (Nat.even k) eqn:EK; cbn [Bool.eqb].
    + rewrite Z.mod_add, Z.mod_small by lia. f_equal. apply Nat.even_spec in EK. destruct EK as [q ->]. rewrite (Nat.mul_comm 2 q), Nat.div_mul by lia. lia.
    + rewrite Z.div_add, Z.div_small by lia. rewrite Z.add_0_l. f_equal. assert (OK : Nat.odd k = true) by (unfold Nat.odd; rewrite EK; reflexivity). apply Nat.odd_spec in OK. destruct OK as [q ->].
      replace (2 * q + 1)%nat with (1 + q * 2)%nat by lia. rewrite Nat.div_add by lia. cbn. lia.
Qed.
Lemma halves_words l : words_ok l -> words16 (halves l).
Proof.
  intros W. apply Forall_forall. intros x X. apply in_flat_map in X as (w & I & X). unfold words_ok in W. rewrite Forall_forall in W. specialize (W w I).
  destruct X as [<-|[<-|[]]]; [apply Z.mod_pos_bound; lia|split; [apply Z.div_pos; lia|apply Z.div_lt_upper_bound; lia]].
Qed.
Lemma short_range b v : 1 <= b <= 16 -> 0 <= to_short b v < 2 ^ b.
Proof. intros B. unfold to_short. rewrite (Z.sub_1_r (2 ^ b)), <- Z.ones_equiv, Z.land_ones by lia. apply Z.mod_pos_bound. lia. Qed.
Lemma short_back b v : 1 <= b <= 16 -> 0 <= v < 2 ^ b -> v < 2 ^ 15 -> of_short b (to_short b v) = v.
Proof.
  intros B V V15. assert (E : to_short b v = v) by (unfold to_short; rewrite (Z.sub_1_r (2 ^ b)), <- Z.ones_equiv, Z.land_ones by lia; apply Z.mod_small; exact V). rewrite E. unfold of_short.
  destruct (b <? 16); [unfold to_short in E; exact E|]. rewrite (proj2 (Z.ltb_lt _ _)) by exact V15. reflexivity.
Qed.

Lemma good_zints orc junk b ni nj nk nw fld dt nw' dat : 1 <= b <= 16 -> (1 <= ni)%nat -> (1 <= nj)%nat -> (1 <= nk)%nat -> words_ok fld -> (ni * nj * nk <= length fld)%nat ->
  data_words 130 (Z.of_nat (ni * nj * nk)) b = Some nw -> pack_field orc junk 130 b ni nj nk nw fld (repeat 0 (Z.to_nat nw + 128)) = Some (dt, nw', dat) ->
  good orc 130 b ni nj nk nw fld 2 dt nw' dat.
Proof.
  intros B I1 J1 K1 W LF DW P. assert (N1 : (1 <= ni * nj * nk)%nat) by nia. assert (NIJ : (ni * nj <= ni * nj * nk)%nat) by nia. set (n := (ni * nj * nk)%nat) in *.
  assert (DW' : nw = 2 * ((Z.of_nat n * 16 + 32 + 63) / 64) /\ Z.of_nat n * 16 + 95 < 2 ^ 31). { unfold data_words in DW. change (130 =? 6) with false in DW. change (130 =? 129) with false in DW. change (130 =? 130) with true in DW. cbv iota in DW. rewrite (Z.max_r b 16) in DW by lia. destruct (Z.leb_spec (2 ^ 31) (Z.of_nat n * 16 + 32 + 63)); [discriminate|]. split; [congruence|lia]. }
  clear DW. destruct DW' as [DW' N31]. assert (NWB : 16 * Z.of_nat n + 32 <= 32 * nw <= 16 * Z.of_nat n + 95) by (split; rewrite DW'; Z.div_mod_to_equations; lia).
  unfold pack_field in P. fold n in P. cbv zeta in P. change ((130 =? 0) || (130 =? 128)) with false in P. cbv iota in P. rewrite (proj2 (Z.ltb_ge 32 b)) in P by lia. change (130 =? 1) with false in P. change (130 =? 129) with false in P. change (130 =? 2) with false in P. change (130 =? 130) with true in P. cbv iota in P.
  rewrite (proj2 (Nat.ltb_ge _ _)) in P by exact LF.
  set (hs := map (to_short b) (firstn n fld)) in *. assert (LH : length hs = n) by (unfold hs; rewrite map_length, firstn_length; lia).
  assert (P16 : 2 ^ b <= 2 ^ 16) by (apply Z.pow_le_mono_r; lia).
  assert (NH : forall k, (k < n)%nat -> nth k hs 0 = to_short b (elt fld 1 k)).
  { intros k K. unfold hs. rewrite (nth_indep _ 0 (to_short b 0)) by (fold hs; lia). rewrite map_nth, firstn_nth_lt by exact K. unfold elt. rewrite Nat.mul_1_r. reflexivity. }
  assert (WH : words16 hs). { apply Forall_forall. intros x X. unfold hs in X. apply in_map_iff in X as (v & <- & _). pose proof (short_range b v B). lia. }
  set (dst0 := repeat 0 (Z.to_nat nw + 128)) in *. assert (LD : length (skipn 1 dst0) = (Z.to_nat nw + 127)%nat) by (unfold dst0; rewrite skipn_length, repeat_length; lia).
  unfold put_shorts in P. rewrite halves_length, LD, LH in P. rewrite (proj2 (Nat.ltb_ge _ _)) in P by lia. cbn [bind] in P.
  set (u := hs ++ skipn n (halves (skipn 1 dst0))) in *.
  assert (LU : length u = (2 * (Z.to_nat nw + 127))%nat) by (unfold u; rewrite app_length, skipn_length, halves_length, LD, LH; lia).
  assert (WU : words16 u). { apply Forall_app. split; [exact WH|]. apply Forall_skipn. apply halves_words. apply words_skipn, words_zeros. }
  destruct (words_of_words u (Z.to_nat nw + 127) LU WU) as (LS0 & WS0 & TS0). set (s := words_of u) in *.
  assert (TK : forall k, (k < n)%nat -> tok16 false s k = to_short b (elt fld 1 k)). { intros k K. rewrite TS0 by lia. unfold u. rewrite app_nth1 by lia. apply NH. exact K. }
  destruct (armn_compress _ _ _ _ _ _ _ _ _) as [[len z]|] eqn:AC; [|discriminate]. cbn [bind] in P.
  destruct (compress_result _ _ _ _ _ _ _ _ _ _ WS0 AC) as [[-> ->]|(LEN & NI & NJ)].
  - (* not compressed *)
    change (-1 <? 0) with true in P. cbv iota in P.
    destruct (pack_frame orc false fld s n (Z.to_nat b) 0 1) as (pk & E & L1 & W1 & _); [lia|exact W|exact WS0|intros j J; lia|rewrite LS0; nia|]. cbv iota in E.
    rewrite E in P. cbn [bind ci_pk] in P. assert (ED : dat = firstn 1 dst0 ++ pk) by congruence. assert (dt = 2) as -> by congruence. assert (nw' = nw) as -> by congruence. clear P.
    constructor.
    + rewrite ED, app_length, L1, LS0, firstn_length. unfold dst0. rewrite repeat_length. lia.
    + rewrite ED. apply words_app; [apply words_firstn, words_zeros|exact W1].
    + lia.
    + eexists. exact DW'.
    + left. reflexivity.
    + cbv zeta. intros junk' src dst _ _ _ _ _ _ (_ & L130). destruct (L130 eq_refl) as (X & _). discriminate X.
  - (* compressed *)
    rewrite (proj2 (Z.ltb_ge len 0)) in P by lia. destruct (fresh_words junk n) as [WG LG].
    destruct (compress_lossless_words orc false false (fresh junk n) s ni nj nk (Z.to_nat b)) as (len' & z' & AC' & LZ & WZ & DZ); [lia|lia|lia|lia|fold n; lia|exact WS0|exact WG|exact LG| | |].
    { fold n. pose proof (Nat.div_mod n 2 ltac:(lia)). lia. }
    { intros k K. rewrite TK by lia. rewrite Z2Nat.id by lia. apply short_range. exact B. }
    assert (len' = len /\ z' = z) as [-> ->] by (split; congruence). destruct (DZ ltac:(lia)) as (p & PL & UZ). clear DZ AC'.
    pose proof (compress_size _ _ _ _ _ _ _ _ _ _ _ WS0 AC ltac:(lia)) as (LEN2 & _). fold n in LEN2.
    assert (EN : nw' = bytes_words (4 + len)) by congruence. rewrite <- EN in P. assert (ED : dat = nw' :: z) by congruence. assert (dt = 130) as -> by congruence. clear P.
    unfold bytes_words in EN. assert (NB1 : 2 + Z.of_nat p <= nw' <= nw) by (split; rewrite EN, ?DW', ?PL; [|rewrite PL in LEN2]; Z.div_mod_to_equations; lia).
    constructor.
    + rewrite ED. cbn [length]. lia.
    + rewrite ED. apply Forall_cons; [lia|exact WZ].
    + lia.
    + eexists. exact EN.
    + right. split; reflexivity.
    + cbv zeta. fold n. intros junk' src dst WS FE LS LD1 _ (F2 & _) (_ & L130). specialize (F2 eq_refl). destruct (L130 eq_refl) as (_ & NK & V15). subst nk. assert (n = ni * nj)%nat as EQN by (unfold n; lia).
      unfold luk_words in LS. change (130 =? 6) with false in LS. change (128 <? 130) with true in LS. cbv iota in LS.
      assert (LSQ : 32 * ((Z.of_nat n * 16 + 32 + 31) / 32) > Z.of_nat n * 16 + 31) by (Z.div_mod_to_equations; lia).
      assert (N2 : (2 * (n / 2) <= n < 2 * (n / 2) + 2)%nat) by (pose proof (Nat.div_mod n 2 ltac:(lia)); pose proof (Nat.mod_upper_bound n 2 ltac:(lia)); lia).
      assert (LSP : (Z.to_nat nw' < length src)%nat) by lia.
      destruct (fresh16_words junk' (2 * (ni * nj))) as [WG16 LG16]. destruct (fresh_words junk' (ni * nj)) as [_ LGT].
      destruct (UZ orc (fresh16 junk' (2 * (ni * nj))) (fresh junk' (ni * nj)) (skipn 1 src)) as (mem' & AU & LMEM & WMEM & TMEM & _); [apply words_skipn; exact WS| | | |exact WG16|exact LG16|exact LGT|].
      { rewrite skipn_length. lia. }
      { transitivity (firstn p (skipn 1 dat)); [apply skipn_sub; apply (firstn_sub _ _ (Z.to_nat nw')); [exact FE|lia]|]. rewrite ED. reflexivity. }
      { rewrite skipn_length, <- EQN. lia. }
      unfold unpack_field. fold n. cbv zeta. change (130 =? 0) with false. cbv iota. rewrite (proj2 (Z.ltb_ge 32 b)) by lia. change (130 =? 1) with false. change (130 =? 129) with false. change (130 =? 2) with false. change (130 =? 130) with true. cbv iota. rewrite AU. cbn [bind].
      assert (LHV : (n <= length (halves mem'))%nat) by (rewrite halves_length, LMEM, skipn_length; lia).
      rewrite (proj2 (Nat.ltb_ge _ _)) by exact LHV. rewrite (proj2 (Nat.ltb_ge _ _)) by exact LD1. cbn [orb]. eexists. split; [reflexivity|].
      unfold reads_as. cbn [Z.eqb Pos.eqb orb].
      assert (LMP : length (map (of_short b) (firstn n (halves mem'))) = n) by (rewrite map_length, firstn_length; lia).
      split; [rewrite app_length, LMP, skipn_length; lia|]. split.
      * intros j J. rewrite Nat.mul_1_r. rewrite nth_error_app1 by lia. rewrite (nth_error_nth' _ 0) by lia. f_equal.
        rewrite (nth_indep _ 0 (of_short b 0)) by lia. rewrite map_nth, firstn_nth_lt by exact J. change (nth j (halves mem') 0) with (el (halves mem') j). rewrite halves_nth, TMEM by lia. rewrite TK by exact J.
        apply short_back; [exact B| |apply V15; exact J]. split; [|apply F2; exact J]. unfold elt. unfold words_ok in W. rewrite Forall_forall in W. apply W. apply nth_In. lia.
      * intros i I. assert (n <= i)%nat. { destruct (Nat.lt_ge_cases i n) as [C|C]; [|exact C]. exfalso. apply (I i C). lia. }
        rewrite nth_error_app2 by lia. rewrite LMP, WaFile.nth_skipn. f_equal. lia.
Qed.

(** ** All of them *)
Lemma pack_kept orc junk datyp b ni nj nk nw fld dst x : pack_field orc junk datyp b ni nj nk nw fld dst = Some x -> exists t, kept_type datyp b = Some t.
Proof.
  unfold pack_field, kept_type. cbv zeta. destruct ((datyp =? 0) || (datyp =? 128)); [eauto|]. destruct (32 <? b); [discriminate|].
  destruct (datyp =? 1); [cbn [orb]; eauto|]. destruct (datyp =? 129); [cbn [orb]; eauto|]. destruct (datyp =? 2); [cbn [orb]; eauto|]. destruct (datyp =? 130); [cbn [orb]; eauto|]. cbn [orb].
  destruct ((datyp =? 4) || (datyp =? 132)); [eauto|]. destruct ((datyp =? 5) && (b =? 32)); [eauto|]. destruct (datyp =? 6); [eauto|discriminate].
Qed.
Lemma pack_good orc junk datyp b ni nj nk nw fld t dt nw' dat : 1 <= b <= 64 -> (1 <= ni)%nat -> (1 <= nj)%nat -> (1 <= nk)%nat -> words_ok fld -> (ni * nj * nk <= length fld)%nat -> reals_ok t (ni * nj * nk) fld ->
  kept_type datyp b = Some t -> (datyp = 6 -> b <= 16) -> (compressed datyp = true -> b <= 16) ->
  data_words datyp (Z.of_nat (ni * nj * nk)) b = Some nw -> pack_field orc junk datyp b ni nj nk nw fld (repeat 0 (Z.to_nat nw + 128)) = Some (dt, nw', dat) ->
  good orc datyp b ni nj nk nw fld t dt nw' dat.
Proof.
  intros B I1 J1 K1 W LF RO KT B6 BC DW P. assert (N1 : (1 <= ni * nj * nk)%nat) by nia. unfold kept_type in KT. destruct ((datyp =? 0) || (datyp =? 128)) eqn:D0.
  { assert (t = 0) as -> by congruence. apply orb_true_iff in D0. rewrite !Z.eqb_eq in D0. eapply good_words; eauto. }
  destruct (32 <? b) eqn:B32; [discriminate|]. destruct ((datyp =? 1) || (datyp =? 129)) eqn:D1.
  { assert (t = 1) as -> by congruence. apply orb_true_iff in D1. rewrite !Z.eqb_eq in D1. destruct D1 as [-> | ->]; [eapply good_reals; eauto; lia|]. specialize (BC eq_refl). eapply good_zreals; eauto. lia. }
  destruct ((datyp =? 2) || (datyp =? 130)) eqn:D2.
  { assert (t = 2) as -> by congruence. apply orb_true_iff in D2. rewrite !Z.eqb_eq in D2. destruct D2 as [-> | ->]; [eapply (good_ints orc junk false); eauto; lia|]. specialize (BC eq_refl). eapply good_zints; eauto. lia. }
  destruct ((datyp =? 4) || (datyp =? 132)) eqn:D4.
  { assert (t = 4) as -> by congruence. apply orb_true_iff in D4. rewrite !Z.eqb_eq in D4. eapply (good_ints orc junk true); eauto; lia. }
  destruct ((datyp =? 5) && (b =? 32)) eqn:D5.
  { assert (t = 5) as -> by congruence. apply andb_true_iff in D5. rewrite !Z.eqb_eq in D5. destruct D5 as [-> ->]. eapply good_ieee; eauto. }
  destruct (Z.eqb_spec datyp 6) as [->|]; [|discriminate]. assert (t = 6) as -> by congruence. specialize (B6 eq_refl). eapply good_packer; eauto. lia.
Qed.
