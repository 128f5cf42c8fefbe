(** C29: editing the data of a record in a buffer. The data type decides the
    kind of storage ([kind_of]); [storable] says the elements and the buffer
    are large enough, [extracted] what the elements read as. *)
From Coq Require Import ZArith List Lia Bool.
From Verif Require Import Bits BitIO CompactInt SpecPack Xdf XdfKeys XdfBuf XdfBufSpec XdfBufFacts.
Import ListNotations.
Open Scope Z_scope.

(** Elements added at the end are read back, and nothing before them changes. *)
Theorem c29_add_then_xtr : forall orc stride b src nelm nbits datyp k i,
  kind_of datyp = Some k -> bad_nbits datyp nbits = false -> b_nbits b = 32 * Z.of_nat i ->
  b_nbits b + 32 * Z.of_nat (nb_words nelm nbits) < 2 ^ 32 ->
  storable k stride (b_data b) i src nelm nbits -> Z.of_nat (i + nb_words nelm nbits) <= b_nwords b + 1 ->
  exists b', xdfadd orc stride b src nelm nbits datyp = Some (0, b') /\ same_frame b b' /\
    b_nbits b' = b_nbits b + 32 * Z.of_nat (nb_words nelm nbits) /\
    (forall j, (j < i \/ i + nb_words nelm nbits <= j)%nat -> word b' j = word b j) /\
    forall dst bitpos, index_word b bitpos = i -> (bitpos mod 64 = 0)%nat -> holds_result k stride dst nelm nbits ->
      exists dst', xdfxtr orc stride b' dst bitpos nelm nbits datyp = Some (0, dst') /\ extracted k stride src nelm nbits dst dst'.
Proof. exact add_spec. Qed.
Print Assumptions c29_add_then_xtr.

(** A replacement is read back; the size and all other words stay. *)
Theorem c29_rep_then_xtr : forall orc stride b src bitpos nelm nbits datyp k,
  kind_of datyp = Some k -> bad_nbits2 datyp nbits = false -> (bitpos mod 64 = 0)%nat ->
  storable k stride (b_data b) (index_word b bitpos) src nelm nbits ->
  Z.of_nat (index_word b bitpos + nb_words nelm nbits) <= b_nwords b + 1 ->
  exists b', xdfrep orc stride b src bitpos nelm nbits datyp = Some (0, b') /\ same_frame b b' /\ b_nbits b' = b_nbits b /\
    (forall j, (j < index_word b bitpos \/ index_word b bitpos + nb_words nelm nbits <= j)%nat -> word b' j = word b j) /\
    forall dst, holds_result k stride dst nelm nbits ->
      exists dst', xdfxtr orc stride b' dst bitpos nelm nbits datyp = Some (0, dst') /\ extracted k stride src nelm nbits dst dst'.
Proof. exact rep_spec. Qed.
Print Assumptions c29_rep_then_xtr.

(** An insertion is read back, what follows it moves up, what precedes stays. *)
Theorem c29_ins_then_xtr : forall orc stride b src bitpos nelm nbits datyp k,
  kind_of datyp = Some k -> bad_nbits datyp nbits = false -> (bitpos mod 64 = 0)%nat -> sane b ->
  (index_word b bitpos <= last_ind b)%nat -> (last_ind b + nb_words nelm nbits < length (b_data b))%nat ->
  b_nbits b + 32 * Z.of_nat (nb_words nelm nbits) < 2 ^ 32 ->
  storable k stride (b_data b) (index_word b bitpos) src nelm nbits ->
  Z.of_nat (last_ind b + nb_words nelm nbits) <= b_nwords b + 1 ->
  exists b', xdfins orc stride b src bitpos nelm nbits datyp = Some (0, b') /\ same_frame b b' /\
    b_nbits b' = b_nbits b + 32 * Z.of_nat (nb_words nelm nbits) /\
    (forall j, (j < index_word b bitpos)%nat -> word b' j = word b j) /\
    (forall j, (index_word b bitpos <= j < last_ind b)%nat -> word b' (j + nb_words nelm nbits) = word b j) /\
    forall dst, holds_result k stride dst nelm nbits ->
      exists dst', xdfxtr orc stride b' dst bitpos nelm nbits datyp = Some (0, dst') /\ extracted k stride src nelm nbits dst dst'.
Proof. exact ins_spec. Qed.
Print Assumptions c29_ins_then_xtr.

(** A cut removes the addressed words and moves down what follows. *)
Theorem c29_cut : forall b bitpos nelm nbits datyp,
  bad_nbits2 datyp nbits = false -> (bitpos mod 64 = 0)%nat -> sane b ->
  (index_word b bitpos + nb_words nelm nbits <= last_ind b)%nat -> (last_ind b < length (b_data b))%nat ->
  32 * Z.of_nat (nb_words nelm nbits) <= b_nbits b < 2 ^ 32 ->
  exists b', xdfcut b bitpos nelm nbits datyp = Some (0, b') /\ same_frame b b' /\
    b_nbits b' = b_nbits b - 32 * Z.of_nat (nb_words nelm nbits) /\
    (forall j, (j < index_word b bitpos)%nat -> word b' j = word b j) /\
    (forall j, (index_word b bitpos <= j < last_ind b - nb_words nelm nbits)%nat -> word b' j = word b (j + nb_words nelm nbits)).
Proof. exact cut_spec. Qed.
Print Assumptions c29_cut.

(** Cutting what was just inserted restores the record: its size, the
    description of the buffer and all its words. *)
Theorem c29_ins_then_cut : forall orc stride b src bitpos nelm nbits datyp k,
  kind_of datyp = Some k -> datyp <> 3 -> bad_nbits datyp nbits = false -> (bitpos mod 64 = 0)%nat -> sane b ->
  (index_word b bitpos <= last_ind b)%nat -> (last_ind b + nb_words nelm nbits < length (b_data b))%nat ->
  b_nbits b + 32 * Z.of_nat (nb_words nelm nbits) < 2 ^ 32 ->
  storable k stride (b_data b) (index_word b bitpos) src nelm nbits ->
  Z.of_nat (last_ind b + nb_words nelm nbits) <= b_nwords b + 1 ->
  exists b1 b2, xdfins orc stride b src bitpos nelm nbits datyp = Some (0, b1) /\
    xdfcut b1 bitpos nelm nbits datyp = Some (0, b2) /\ same_frame b b2 /\ b_nbits b2 = b_nbits b /\
    forall j, (j < last_ind b)%nat -> word b2 j = word b j.
Proof.
  intros orc stride b src bitpos nelm nbits datyp k K D3 B A SA IL LL LT S LE.
  destruct (ins_spec orc stride b src bitpos nelm nbits datyp k K B A SA IL LL LT S LE) as (b1 & E1 & F1 & N1 & LO & HI & _).
  pose proof F1 as (_ & FD & FR & _ & _ & FL). set (n := nb_words nelm nbits) in *.
  assert (IW : index_word b1 bitpos = index_word b bitpos) by (unfold index_word; rewrite FD; reflexivity).
  assert (LI : last_ind b1 = (last_ind b + n)%nat).
  { unfold last_ind. rewrite FR, N1. replace (b_nbits b + 32 * Z.of_nat n) with (b_nbits b + Z.of_nat n * 32) by lia. rewrite Z.div_add by lia. destruct SA as (_ & S2 & S3). pose proof (Z.div_pos (b_nbits b) 32 S3 ltac:(lia)). lia. }
  assert (B2 : bad_nbits2 datyp nbits = false). { unfold bad_nbits, bad_nbits2 in *. rewrite (proj2 (Z.eqb_neq _ _) D3) in *. exact B. }
  assert (SA1 : sane b1). { unfold sane in *. rewrite FD, FR, N1. lia. }
  destruct (cut_spec b1 bitpos nelm nbits datyp B2 A SA1) as (b2 & E2 & F2 & N2 & LO2 & HI2); [fold n; lia|lia|fold n; destruct SA as (_ & _ & S3); lia|]. fold n in N2, HI2.
  exists b1, b2. split; [exact E1|]. split; [exact E2|]. split. { unfold same_frame in *. intuition congruence. } split; [lia|].
  intros j J. destruct (Nat.lt_ge_cases j (index_word b bitpos)) as [G|G].
  - rewrite LO2 by lia. apply LO. exact G.
  - rewrite HI2 by lia. apply HI. lia.
Qed.
Print Assumptions c29_ins_then_cut.

(** A record of four data words in a buffer of twelve; eight 6-bit values are
    inserted at the third word. *)
Definition demo_buf : buffer := mkbuf 12 (32 * 4) 0 0 1 0 [11; 22; 33; 44; 0; 0; 0; 0; 0; 0; 0; 0; 0; 0].
Definition demo_src : list Z := [1; 2; 63; 0; 5; 6; 7; 8].
Example c29_demo_storable : storable (Packed false) 1 (b_data demo_buf) (index_word demo_buf 64) demo_src 8 6 /\ sane demo_buf /\
  (index_word demo_buf 64 <= last_ind demo_buf)%nat /\ (last_ind demo_buf + nb_words 8 6 < length (b_data demo_buf))%nat.
Proof.
  split; [|split; [repeat split; discriminate|split; vm_compute; lia]]. split; [vm_compute; lia|]. split; [lia|]. split; [repeat constructor; discriminate|]. split; [repeat constructor; discriminate|].
  split; [intros j J; rewrite Nat.mul_1_r; exact J|]. split; [lia|]. split; [vm_compute; lia|discriminate].
Qed.
Definition after (r : option (Z * buffer)) : buffer := match r with Some (_, b) => b | None => demo_buf end.
Example c29_demo : let b1 := after (xdfins x86 1 demo_buf demo_src 64 8 6 2) in
  xdfxtr x86 1 b1 (repeat 9 8) 64 8 6 2 = Some (0, demo_src) /\ firstn 2 (b_data b1) = [11; 22] /\ firstn 2 (skipn 4 (b_data b1)) = [33; 44] /\
  firstn 4 (b_data (after (xdfcut b1 64 8 6 2))) = [11; 22; 33; 44].
Proof. vm_compute. repeat split; reflexivity. Qed.

(** Data of type 3 (characters) can be inserted but not cut or replaced. *)
Theorem c29_datyp3_cut_refuted : exists b1, xdfins x86 1 demo_buf demo_src 64 8 8 3 = Some (0, b1) /\
  xdfcut b1 64 8 8 3 = Some (ERR_BAD_DATYP, b1) /\ xdfrep x86 1 b1 demo_src 64 8 8 3 = Some (ERR_BAD_DATYP, b1).
Proof. eexists. split; [vm_compute; reflexivity|]. split; vm_compute; reflexivity. Qed.
Print Assumptions c29_datyp3_cut_refuted.
Theorem c29_datyp3_never_cut : forall b bitpos nelm nbits, (bitpos mod 64 = 0)%nat -> xdfcut b bitpos nelm nbits 3 = Some (ERR_BAD_DATYP, b).
Proof. intros b bitpos nelm nbits A. unfold xdfcut. rewrite (proj2 (Nat.eqb_eq _ _) A). reflexivity. Qed.
Print Assumptions c29_datyp3_never_cut.

(** An insertion or replacement of an invalid data type is rejected after it
    has changed the words of the record. *)
Theorem c29_rejected_call_refuted : exists b1 b2, xdfins x86 1 demo_buf demo_src 0 8 8 77 = Some (ERR_BAD_DATYP, b1) /\ word b1 2 <> word demo_buf 2 /\
  xdfrep x86 1 demo_buf demo_src 0 8 8 77 = Some (ERR_BAD_DATYP, b2) /\ word b2 0 <> word demo_buf 0.
Proof. eexists; eexists. split; [vm_compute; reflexivity|]. split; [vm_compute; discriminate|]. split; [vm_compute; reflexivity|]. vm_compute; discriminate. Qed.
Print Assumptions c29_rejected_call_refuted.

(** The test of the space left lets an addition write past the data of the
    buffer: c_xdfopn's callers give [nwords] words in all, ten of which hold
    the description. *)
Theorem c29_add_overflow_refuted : exists b src, b_nwords b = 20 /\ length (b_data b) = 10%nat /\ xdfadd x86 1 b src 12 32 0 = None.
Proof. exists (mkbuf 20 (32 * 2) 0 0 1 0 (repeat 0 10)), (repeat 7 12). vm_compute. auto. Qed.
Print Assumptions c29_add_overflow_refuted.
