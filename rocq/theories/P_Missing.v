(** C17, C18: missing values (EncodeMissingValue, DecodeMissingValue). *)
From Coq Require Import ZArith List Lia Bool.
From Coq Require Import Floats.SpecFloat.
From Verif Require Import Bits Missing MissingFacts MissingInt.
Import ListNotations.
Open Scope Z_scope.

(** C17, unsigned integers. A field of 32, 16 or 8-bit elements that contains
    the missing value [miss], every other element leaving room for one more
    code in [nbits] bits: the encoder reports missing values and produces codes
    that fit [nbits] bits, from which the decoder restores every element.
    Missing from the full property: element 0 when it is itself missing
    (see [c17_first_element_refuted]) and data for which one more than some
    value is the missing value (see [c17_next_code_is_missing_refuted]). *)
Theorem c17_unsigned_partial : forall fl dst src datatype nbits (is_byte is_short is_double : bool) b miss,
  Z.land datatype 0xF = 2 ->
  b = (if is_short then 16 else if is_byte then 8 else 32) ->
  miss = (if is_short then m_ushort fl else if is_byte then m_ubyte fl else m_uint fl) ->
  1 <= nbits -> Forall (fun v => 0 <= v < 2 ^ b) src -> In miss src ->
  (forall v, In v src -> v <> miss -> v < 2 ^ Z.min nbits b - 1 /\ v + 1 <> miss) ->
  exists n e r,
    EncodeMissingValue true fl (FInt dst) (FInt src) datatype nbits is_byte is_short is_double = Some (n, FInt e) /\
    0 < n /\ length e = length src /\ Forall (fun v => 0 <= v < 2 ^ Z.min nbits b) e /\
    DecodeMissingValue true fl (FInt e) datatype is_byte is_short is_double = Some (FInt r) /\
    length r = length src /\
    forall k, (0 < k < length src)%nat \/ k = 0%nat /\ nth 0 src 0 <> miss -> nth k r 0 = nth k src 0.
Proof.
  intros fl dst src datatype nbits is_byte is_short is_double b miss Ht Eb Em Hn F Hm Hd.
  assert (NE : src <> []) by (intros ->; destruct Hm).
  assert (Hb : 1 <= b) by (subst b; destruct is_short, is_byte; lia).
  destruct (unsigned_roundtrip b miss dst src nbits Hb Hn F NE Hm Hd) as (n & e & r & E1 & E2 & E3 & E4 & E5 & E6 & E7).
  exists n, e, r. unfold EncodeMissingValue, DecodeMissingValue, encode_select, decode_select. rewrite Ht. cbn [negb Z.eqb Pos.eqb orb].
  subst b miss. destruct is_short; [|destruct is_byte]; unfold enc_int, dec_int; rewrite E1, E5; cbn [bind]; auto 10.
Qed.
Print Assumptions c17_unsigned_partial.

(** C17, signed 32-bit integers. *)
Theorem c17_signed_partial : forall fl dst src datatype nbits (is_double : bool),
  Z.land datatype 0xF = 4 -> 1 <= nbits -> In (m_int fl) src ->
  (forall v, In v src -> v <> m_int fl -> v < 2 ^ (Z.min nbits 32 - 1) - 1 /\ v + 1 <> m_int fl) ->
  exists n e r,
    EncodeMissingValue true fl (FInt dst) (FInt src) datatype nbits false false is_double = Some (n, FInt e) /\
    0 < n /\ length e = length src /\
    (forall lo, (exists v, In v src /\ v <> m_int fl) -> (forall v, In v src -> v <> m_int fl -> lo <= v) ->
       Forall (fun v => lo <= v < 2 ^ (Z.min nbits 32 - 1)) e) /\
    DecodeMissingValue true fl (FInt e) datatype false false is_double = Some (FInt r) /\
    length r = length src /\
    forall k, (0 < k < length src)%nat \/ k = 0%nat /\ nth 0 src 0 <> m_int fl -> nth k r 0 = nth k src 0.
Proof.
  intros fl dst src datatype nbits is_double Ht Hn Hm Hd.
  assert (NE : src <> []) by (intros ->; destruct Hm).
  destruct (signed_roundtrip (m_int fl) dst src nbits Hn NE Hm Hd) as (n & e & r & E1 & E2 & E3 & E4 & E5 & E6 & E7).
  exists n, e, r. unfold EncodeMissingValue, DecodeMissingValue, encode_select, decode_select. rewrite Ht. cbn [negb Z.eqb Pos.eqb orb].
  unfold enc_int, dec_int. rewrite E1, E5. cbn [bind]. auto 10.
Qed.
Print Assumptions c17_signed_partial.

(** C17, signed 16 and 8-bit integers: only when all data are below -1 (see
    [c17_short_refuted]). *)
Theorem c17_short_partial : forall fl dst src datatype nbits (is_byte is_short is_double : bool) b miss,
  Z.land datatype 0xF = 4 -> is_byte = true \/ is_short = true ->
  b = (if is_short then 16 else 8) -> miss = (if is_short then m_short fl else m_byte fl) ->
  1 <= nbits -> Forall (fun v => -2 ^ (b - 1) <= v < 2 ^ (b - 1)) src -> In miss src ->
  (forall v, In v src -> v <> miss -> v < -1 /\ v + 1 <> miss) ->
  exists n e r,
    EncodeMissingValue true fl (FInt dst) (FInt src) datatype nbits is_byte is_short is_double = Some (n, FInt e) /\
    0 < n /\ length e = length src /\
    DecodeMissingValue true fl (FInt e) datatype is_byte is_short is_double = Some (FInt r) /\
    length r = length src /\
    forall k, (0 < k < length src)%nat \/ k = 0%nat /\ nth 0 src 0 <> miss -> nth k r 0 = nth k src 0.
Proof.
  intros fl dst src datatype nbits is_byte is_short is_double b miss Ht Hbs Eb Em Hn F Hm Hd.
  assert (NE : src <> []) by (intros ->; destruct Hm).
  assert (Hb : b = 16 \/ b = 8) by (subst b; destruct is_short; auto).
  destruct (short_roundtrip b miss dst src nbits Hb Hn F NE Hm Hd) as (n & e & r & E1 & E2 & E3 & E5 & E6 & E7).
  exists n, e, r. unfold EncodeMissingValue, DecodeMissingValue, encode_select, decode_select. rewrite Ht. cbn [negb Z.eqb Pos.eqb orb].
  subst b miss. destruct is_short; [|destruct is_byte; [|destruct Hbs; discriminate]];
    unfold enc_int, dec_int; rewrite E1, E5; cbn [bind]; auto 10.
Qed.
Print Assumptions c17_short_partial.

Example c17_unsigned_instance :
  EncodeMissingValue true default_flags (FInt []) (FInt [3; 2 ^ 32 - 1; 5; 0; 2 ^ 32 - 1]) 66 3 false false false = Some (2, FInt [3; 6; 5; 0; 6]) /\
  DecodeMissingValue true default_flags (FInt [3; 6; 5; 0; 6]) 66 false false false = Some (FInt [3; 2 ^ 32 - 1; 5; 0; 2 ^ 32 - 1]) /\
  (forall v, In v [3; 2 ^ 32 - 1; 5; 0; 2 ^ 32 - 1] -> v <> 2 ^ 32 - 1 -> v < 2 ^ Z.min 3 32 - 1 /\ v + 1 <> 2 ^ 32 - 1).
Proof.
  split; [vm_compute; reflexivity|]. split; [vm_compute; reflexivity|].
  change (2 ^ 32 - 1) with 4294967295. change (2 ^ Z.min 3 32 - 1) with 7.
  intros v Hv Nv. repeat (destruct Hv as [<-|Hv]; [lia|]). destruct Hv.
Qed.
Example c17_signed_instance :
  EncodeMissingValue true default_flags (FInt []) (FInt [-3; -2 ^ 31; 5; 0]) 68 5 false false false = Some (1, FInt [-3; 6; 5; 0]) /\
  DecodeMissingValue true default_flags (FInt [-3; 6; 5; 0]) 68 false false false = Some (FInt [-3; -2 ^ 31; 5; 0]).
Proof. split; vm_compute; reflexivity. Qed.

(** C17 refuted: a missing first element comes back as the replacement code. *)
Theorem c17_first_element_refuted :
  EncodeMissingValue true default_flags (FInt []) (FInt [-2 ^ 31; 4; 5]) 68 16 false false false = Some (1, FInt [6; 4; 5]) /\
  DecodeMissingValue true default_flags (FInt [6; 4; 5]) 68 false false false = Some (FInt [6; 4; 5]).
Proof. split; vm_compute; reflexivity. Qed.
Print Assumptions c17_first_element_refuted.

(** C17 refuted for signed 16-bit fields: with data reaching -1 the replacement
    code is -1; the maximum, a valid value, is decoded as missing and the
    missing value as -1. *)
Theorem c17_short_refuted :
  EncodeMissingValue true default_flags (FInt []) (FInt [4; -2 ^ 15; 5]) 68 16 false true false = Some (1, FInt [4; -1; 5]) /\
  DecodeMissingValue true default_flags (FInt [4; -1; 5]) 68 false true false = Some (FInt [4; -1; -2 ^ 15]).
Proof. split; vm_compute; reflexivity. Qed.
Print Assumptions c17_short_refuted.

(** C17 refuted when one more than the maximum is the missing value: the
    replacement code is the missing value, and the decoder marks the largest
    valid value (254) as missing. *)
Theorem c17_next_code_is_missing_refuted :
  EncodeMissingValue true default_flags (FInt []) (FInt [1; 2 ^ 8 - 1; 2 ^ 8 - 2; 3]) 66 8 true false false
    = Some (1, FInt [1; 2 ^ 8 - 1; 2 ^ 8 - 2; 3]) /\
  DecodeMissingValue true default_flags (FInt [1; 2 ^ 8 - 1; 2 ^ 8 - 2; 3]) 66 true false false
    = Some (FInt [1; 2 ^ 8 - 1; 2 ^ 8 - 1; 3]).
Proof. split; vm_compute; reflexivity. Qed.
Print Assumptions c17_next_code_is_missing_refuted.

(** C17 refuted for floats: a constant negative field. The replacement code is
    -2, below the data: decoding turns the data into missing values. *)
Theorem c17_negative_constant_refuted :
  let f z := binary_normalize 24 128 z 0 false in
  EncodeMissingValue true default_flags (FFloat []) (FFloat [f (-1); m_float default_flags; f (-1)]) 65 16 false false false
    = Some (1, FFloat [f (-1); f (-2); f (-1)]) /\
  DecodeMissingValue true default_flags (FFloat [f (-1); f (-2); f (-1)]) 65 false false false
    = Some (FFloat [f (-1); f (-2); m_float default_flags]).
Proof. split; vm_compute; reflexivity. Qed.
Print Assumptions c17_negative_constant_refuted.

(** C18: a field without missing values: the encoder reports 0 and leaves the
    destination alone (the writer then stores the field as given, without the
    missing-value flag). Integer fields. *)
Theorem c18_integers_unaltered : forall used fl dst src datatype nbits (is_byte is_short is_double : bool),
  Z.land datatype 0xF = 2 \/ Z.land datatype 0xF = 4 -> src <> [] ->
  ~ In (if Z.land datatype 0xF =? 2
        then (if is_short then m_ushort fl else if is_byte then m_ubyte fl else m_uint fl)
        else (if is_short then m_short fl else if is_byte then m_byte fl else m_int fl)) src ->
  EncodeMissingValue used fl (FInt dst) (FInt src) datatype nbits is_byte is_short is_double = Some (0, FInt dst).
Proof.
  intros used fl dst src datatype nbits is_byte is_short is_double Ht NE H. unfold EncodeMissingValue.
  destruct used; cbn [negb]; [|reflexivity]. unfold encode_select.
  assert (A : forall m plug, ~ In m src -> enc_int m plug (FInt dst) (FInt src) nbits = Some (0, FInt dst)).
  { intros m plug Hv. unfold enc_int. rewrite none_missing; auto. }
  destruct Ht as [Ht|Ht]; rewrite Ht in *; cbn [Z.eqb Pos.eqb orb andb] in *; destruct is_short, is_byte; apply A; auto.
Qed.
Print Assumptions c18_integers_unaltered.

(** Floating point fields; -0 equals +0 and a NaN equals nothing. *)
Theorem c18_floats_unaltered : forall used fl dst src datatype nbits (is_byte is_short is_double : bool),
  Z.land datatype 0xF = 1 \/ Z.land datatype 0xF = 5 \/ Z.land datatype 0xF = 6 -> src <> [] ->
  (forall v, In v src -> SFeqb v (if is_double || ((Z.land datatype 0xF =? 5) && (nbits =? 64)) then m_double fl else m_float fl) = false) ->
  EncodeMissingValue used fl (FFloat dst) (FFloat src) datatype nbits is_byte is_short is_double = Some (0, FFloat dst).
Proof.
  intros used fl dst src datatype nbits is_byte is_short is_double Ht NE H. unfold EncodeMissingValue.
  destruct used; cbn [negb]; [|reflexivity]. unfold encode_select.
  assert (A : forall m plug, (forall v, In v src -> SFeqb v m = false) -> enc_float m plug (FFloat dst) (FFloat src) nbits = Some (0, FFloat dst)).
  { intros m plug Hv. unfold enc_float. rewrite none_missing_any; auto. }
  destruct Ht as [Ht|[Ht|Ht]]; rewrite Ht in *; cbn [Z.eqb Pos.eqb orb andb] in *;
    (match goal with |- context [is_double || ?c] => destruct (is_double || c) end; [apply A; auto|]);
    destruct (32 <? nbits); try reflexivity; apply A; auto.
Qed.
Print Assumptions c18_floats_unaltered.

(** Other data types (raw bits, characters, complex) are left alone. *)
Theorem c18_other_types_unaltered : forall used fl dst src datatype nbits is_byte is_short is_double,
  ~ In (Z.land datatype 0xF) [1; 2; 4; 5; 6] ->
  EncodeMissingValue used fl dst src datatype nbits is_byte is_short is_double = Some (0, dst).
Proof.
  intros used fl dst src datatype nbits is_byte is_short is_double H. unfold EncodeMissingValue.
  destruct used; cbn [negb]; [|reflexivity]. unfold encode_select.
  assert (E : forall t, In t [1; 2; 4; 5; 6] -> (Z.land datatype 0xF =? t) = false).
  { intros t Hin. apply Z.eqb_neq. intros X. apply H. rewrite X. exact Hin. }
  rewrite !E by (cbn; auto 10). reflexivity.
Qed.
Print Assumptions c18_other_types_unaltered.

Example c18_instance :
  EncodeMissingValue true default_flags (FInt [9; 9]) (FInt [1; 2]) 4 16 false false false = Some (0, FInt [9; 9]).
Proof. vm_compute. reflexivity. Qed.
