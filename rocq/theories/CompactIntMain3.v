(** Read footprint of the unpacker. *)
From Coq Require Import ZArith List Lia Bool.
From Verif Require Import Bits BitIO BitIOFacts CompactInt CompactIntFacts SpecPack CompactIntMain CompactIntMain2 CompactShort.
Import ListNotations.
Open Scope Z_scope.
Open Scope opt_scope.

(** Decode any bit range into tokens. *)
Lemma tokens_of_bits b n : forall l, length l = (b * n)%nat ->
  exists toks, length toks = n /\ tbits b toks = l /\ forall j, (j < n)%nat -> nth j toks 0 = val_of (slice (b * j) b l).
Proof.
  induction n; intros l Hl.
  - exists []. split; auto. split; [|lia]. destruct l; auto. simpl in Hl. lia.
  - destruct (IHn (skipn b l)) as (toks & L & T & V). { rewrite skipn_length. lia. }
    exists (val_of (firstn b l) :: toks). split; [simpl; lia|].
    assert (Lf : length (firstn b l) = b) by (rewrite firstn_length; lia).
    split.
    + unfold tbits. cbn [flat_map]. fold (tbits b toks). rewrite T. rewrite <- Lf at 1. rewrite bits_of_val_of.
      apply firstn_skipn.
    + intros [|j] Hj; cbn [nth].
      * rewrite Nat.mul_0_r. reflexivity.
      * rewrite V by lia. f_equal. unfold slice. rewrite skipn_skipn'. f_equal. f_equal. lia.
Qed.

Lemma slice_nth (l : list bool) p n : (p + n <= length l)%nat -> slice p n l = map (fun i => nth i l false) (seq p n).
Proof.
  revert p. induction n; intros p H; simpl; auto.
  unfold slice in *. rewrite <- IHn by lia.
  destruct (skipn p l) as [|x r] eqn:E.
  { exfalso. assert (length (skipn p l) = 0%nat) by (rewrite E; auto). rewrite skipn_length in H0. lia. }
  assert (nth p l false = x).
  { rewrite <- (firstn_skipn p l), E, app_nth2; rewrite firstn_length_le by lia; [|lia]. rewrite Nat.sub_diag. reflexivity. }
  assert (skipn (S p) l = r).
  { replace (S p) with (p + 1)%nat by lia. rewrite <- skipn_skipn'. rewrite E. reflexivity. }
  rewrite H0, H1. reflexivity.
Qed.

Lemma slice_slice {A} p n q m (l : list A) : (q + m <= n)%nat -> slice q m (slice p n l) = slice (p + q) m l.
Proof.
  intros. unfold slice. rewrite skipn_firstn_comm, firstn_firstn, Nat.min_l by lia.
  rewrite skipn_skipn'. reflexivity.
Qed.

Lemma unpack_value orc signed dst pk n b off stride :
  (1 <= b <= 32)%nat -> words_ok pk -> fits dst stride n -> (1 <= stride)%nat ->
  (off + n * b < 32 * length pk)%nat ->
  exists dst', compact_integer orc dst None pk n (Some b) off stride (if signed : bool then 4 else 2)
               = Some (mkci dst' None pk (Z.of_nat b)) /\
    updated dst dst' stride n (fun j =>
      (val_of (map (bit_at pk) (seq (off + j * b) b)) - (if signed then 2 ^ Z.of_nat (b - 1) else 0)) mod 2 ^ 32).
Proof.
  intros Hb F Hd Hst Hlen. pose proof (mbits_length 32 pk) as LM.
  assert (LS : length (slice off (b * n) (mbits 32 pk)) = (b * n)%nat) by (apply slice_length; lia).
  destruct (tokens_of_bits b n _ LS) as (toks & L & T & V).
  destruct (unpack_tokens_spec orc pk off b (fun t => u32 (t - positive_mask signed b)) stride n dst toks)
    as (d & E & Ld & A & B); auto; [lia|].
  exists d. split.
  - assert (EU : ci_unpack orc signed dst None pk n (Some b) off stride = Some (mkci d None pk (Z.of_nat b))).
    { unfold ci_unpack. cbn [bind]. rewrite E. reflexivity. }
    unfold compact_integer. destruct b; [lia|]. destruct signed; exact EU.
  - split; auto. split; auto. intros j Hj. rewrite A by auto. f_equal.
    assert (EV : nth j toks 0 = val_of (map (bit_at pk) (seq (off + j * b) b))).
    { rewrite V by auto. rewrite slice_slice by nia. rewrite slice_nth by nia.
      replace (off + b * j)%nat with (off + j * b)%nat by lia. f_equal.
      apply map_ext_in. intros i Hi. apply in_seq in Hi. rewrite bit_at_mbits by nia. reflexivity. }
    rewrite EV.
    pose proof (val_of_range (map (bit_at pk) (seq (off + j * b) b))) as R. rewrite map_length, seq_length in R.
    rewrite Z.mod_small by exact R. unfold u32. f_equal. f_equal.
    destruct signed; [apply positive_mask_signed; lia|reflexivity].
Qed.

Lemma extract_overread orc mem b s : (1 <= r_bits s <= 32)%nat -> (1 <= b <= 32)%nat -> (rpos s + b = 32 * length mem)%nat ->
  extract orc mem b s = None.
Proof.
  destruct s as [p w bits]. cbn [r_bits]. intros Hr Hb Hlen. unfold rpos in Hlen. cbn [r_ptr r_bits] in Hlen.
  assert (Hrd : forall q, (length mem <= q)%nat -> rd mem q = None).
  { intros q Hq. unfold rd. apply nth_error_None. auto. }
  unfold extract. cbn [r_bits r_word r_ptr]. destruct (Nat.leb_spec b bits).
  - unfold refill. cbn [r_bits r_ptr]. replace (bits - b)%nat with 0%nat by lia. cbn [Nat.eqb]. rewrite Hrd by lia. reflexivity.
  - destruct (rd mem (S p)); [|reflexivity]. cbn [bind]. unfold refill. cbn [r_bits r_ptr].
    replace (32 - (b - bits))%nat with 0%nat by lia. cbn [Nat.eqb]. rewrite Hrd by lia. reflexivity.
Qed.

Lemma unpack_loop_overread orc pk b f stride k n s dst :
  Forall inr32 pk -> rok pk s -> (1 <= b <= 32)%nat -> (1 <= n)%nat ->
  (rpos s + b * n = 32 * length pk)%nat ->
  unpack_loop orc pk b 0 f stride k n s dst = None.
Proof.
  intros F. revert k s dst. induction n; intros k s dst Hr Hb Hn Hlen; [lia|].
  cbn [unpack_loop]. destruct n as [|n'].
  - rewrite extract_overread; auto; [apply Hr|lia].
  - destruct (extract_spec orc pk b s) as (t' & s1 & E1 & O1 & P1 & R1 & B1); auto; [lia|].
    rewrite E1. cbn [bind]. change (0 <? 0)%nat with false. cbn [bind].
    destruct (wr dst (k * stride) (f t')); [|reflexivity]. cbn [bind]. apply IHn; auto; [lia|]. rewrite P1. lia.
Qed.

Lemma unpack_overread orc signed dst pk n b off stride :
  (1 <= b <= 32)%nat -> words_ok pk -> (1 <= n)%nat -> (off + n * b = 32 * length pk)%nat ->
  compact_integer orc dst None pk n (Some b) off stride (if signed : bool then 4 else 2) = None.
Proof.
  intros Hb F Hn Hlen.
  assert (EU : ci_unpack orc signed dst None pk n (Some b) off stride = None).
  { unfold ci_unpack. cbn [bind]. unfold unpack_tokens.
    destruct (rinit_spec orc pk off) as (s & E & O & P); auto; [nia|]. rewrite E. cbn [bind].
    replace (32 <? b)%nat with false by (symmetry; apply Nat.ltb_ge; lia).
    rewrite unpack_loop_overread; auto. rewrite P. lia. }
  unfold compact_integer. destruct b; [lia|]. destruct signed; exact EU.
Qed.
