(** Specification of the RPN standard file calls, independent of Fst.v but for
    the records of their arguments and results. *)
From Coq Require Import ZArith List Bool Reals.
From Flocq Require Import Core.
From Verif Require Import P_FloatPack SpecPack WaFile Xdf XdfSearch XdfOpen XdfPut2 XdfHist XdfSpec Dates DatesSpec Fst.
Import ListNotations.
Open Scope Z_scope.

(** ** Files *)
(** A standard file: 16 words of keys after the first two, and two more words
    of auxiliary keys (fstd98.c 71-100, stdfkeys and stdf_info_keys). *)
Definition std_file (f : fte) : Prop := f_kp f = std_kp /\ f_plen f = 9%nat /\ f_ilen f = 1%nat.
Definition opened (s : sys) (p i : nat) (f : fte) : Prop := s_fs s p = Opened i /\ w_file (s_w s) i = Some f.

(** ** Text *)
(** Printable characters, and what the 6-bit characters of a standard file keep
    of them: lower case becomes upper case, ` { | } ~ become @ [ \ ] ^. *)
Definition printable (c : Z) : Prop := 32 <= c < 128.
Definition kept_char (c : Z) : Z := if 96 <=? c then c - 32 else c.
(** The first [n] characters, blanks at the end. *)
Definition blank_filled (n : nat) (t : list Z) : list Z := map (fun i => nth i t 32) (seq 0 n).
Definition kept (n : nat) (t : list Z) : list Z := map kept_char (blank_filled n t).
Definition blank (t : list Z) : bool := forallb (Z.eqb 32) t.

(** ** Dates *)
(** Date [s] is the stamp that newdate gives for the moment [m]. *)
Definition stamps (s : Z) (m : moment) : Prop := stampable m /\ mode_3 (pdate m) (ptime m) = Some s.
(** The field computed [sec] seconds after the moment [o] is valid at the moment
    [v]: the one nearest to that time that a stamp can hold. Either both are
    whole hours, or both are from 1980 on and no later than 2235/12/31
    23:59:00. *)
Definition valid_at (o v : moment) (sec : Z) : Prop :=
  (whole_hour o /\ whole_hour v /\ o <> oddity /\ v <> oddity /\ seconds v = seconds o + sec) \/
  (1980 <= yr o /\ 1980 <= yr v /\ yr v <= 2235 /\ yr o <= 2235 /\ 0 <= sec /\
   seconds v <= (723180 * 17280 + 1615714548) * 5 /\ 2 * Z.abs (seconds v - (seconds o + sec)) < 5).
(** What fstprm should give as dates of a record written with origin date
    [date]. When no time has elapsed any date will do whose last decimal digit,
    taken as unsigned, is at most 7: the stamps of newdate, and those of old
    stamps with a run number below 8. *)
Definition dates_kept (date deet npas dateo datev : Z) : Prop :=
  dateo = date /\
  (deet * npas = 0 -> datev = date) /\
  (forall o v, stamps date o -> stampable v -> valid_at o v (deet * npas) -> stamps datev v).
Definition date_ok (date deet npas : Z) : Prop :=
  (deet * npas = 0 /\ - 2 ^ 31 <= date < 2 ^ 31 /\ date mod 2 ^ 32 mod 10 <= 7) \/
  (exists o v, stamps date o /\ stampable v /\ valid_at o v (deet * npas)).

(** ** Parameters *)
(** Number of bits asked for (packing -n: n bits; 0 and 1: none, 32 bits; n:
    32 / n bits). *)
Definition asked_bits (npak : Z) : Z := if npak <? 0 then - npak else if npak <=? 1 then 32 else Z.max 1 (32 / npak).
(** Data type and number of bits of the field stored, without the 128 that asks
    for compression. Reals in 31 or 32 bits are stored as they are, and so are
    those of type 6 in more than 24; type 6 in 17 to 24 bits becomes type 1. *)
Definition stored_type (plain : bool) (b datyp : Z) : Z :=
  let t := datyp mod 128 in
  if plain then 0
  else if (datyp =? 1) && ((b =? 31) || (b =? 32)) || (t =? 6) && (24 <? b) then 5
  else if (t =? 6) && (16 <? b) then 1 else t.
Definition stored_bits (plain : bool) (b datyp : Z) : Z :=
  if (datyp =? 1) && (b =? 31) || negb plain && (datyp mod 128 =? 6) && (24 <? b) then 32 else b.
Definition plain (npak : Z) : bool := (npak =? 0) || (npak =? 1).
Definition kind (a : fargs) : Z := stored_type (plain (a_npak a)) (asked_bits (a_npak a)) (a_datyp a).
Definition width (a : fargs) : Z := stored_bits (plain (a_npak a)) (asked_bits (a_npak a)) (a_datyp a).
(** Whether compression is tried: data types 129 and 130, in at most 16 bits. *)
Definition zips (a : fargs) : bool := negb (plain (a_npak a)) && ((a_datyp a =? 129) || (a_datyp a =? 130)) && (width a <=? 16).

Definition text_ok (a : fargs) : Prop :=
  Forall printable (a_typvar a) /\ Forall printable (a_nomvar a) /\ Forall printable (a_etiket a) /\ Forall printable (a_grtyp a).
(** The parameters [d] of a record are those it was written with. *)
Definition describes (a : fargs) (d : desc) : Prop :=
  (d_ni d = a_ni a /\ d_nj d = a_nj a /\ d_nk d = Z.max 1 (a_nk a)) /\
  (d_nbits d = width a /\ (d_datyp d = kind a \/ zips a = true /\ d_datyp d = 128 + kind a)) /\
  (d_deet d = a_deet a /\ d_npas d = a_npas a) /\
  (d_ip1 d = a_ip1 a /\ d_ip2 d = a_ip2 a /\ d_ip3 d = a_ip3 a) /\
  (d_ig1 d = a_ig1 a /\ d_ig2 d = a_ig2 a /\ d_ig3 d = a_ig3 a /\ d_ig4 d = a_ig4 a) /\
  (d_typvar d = kept 2 (a_typvar a) /\ d_nomvar d = kept 4 (a_nomvar a) /\ d_etiket d = kept 12 (a_etiket a) /\
   d_grtyp d = blank_filled 1 (a_grtyp a)) /\
  dates_kept (a_date a) (a_deet a) (a_npas a) (d_dateo d) (d_datev d).

(** ** Searching *)
(** What a search looks at in the parameters of a record. *)
Record label := mklabel { l_datev : Z; l_ip1 : Z; l_ip2 : Z; l_ip3 : Z; l_typvar : list Z; l_nomvar : list Z; l_etiket : list Z }.
Definition label_of (d : desc) : label := mklabel (d_datev d) (d_ip1 d) (d_ip2 d) (d_ip3 d) (d_typvar d) (d_nomvar d) (d_etiket d).

(** That of record [r] of directory page [k], from its directory entry: what
    fstprm gives for that record (theorem c38_label). *)
Definition entry_label (ws : list Z) : label :=
  let k := keys_of ws in
  mklabel (int32 (decimal_date (k_date k))) (k_ip1 k) (k_ip2 k) (k_ip3 k) (unsix (k_typvar k) 2) (unsix (k_nomvar k) 4)
          (unsix (k_etik15 k) 5 ++ unsix (k_etik6a k) 5 ++ unsix (k_etikbc k) 2).
Definition record_label (f : fte) (k r : nat) : label := entry_label (skipn 2 (entry_words f k r)).
Definition record_dims (f : fte) (k r : nat) : Z * Z * Z := let ks := keys_of (skipn 2 (entry_words f k r)) in (k_ni ks, k_nj ks, k_nk ks).

(** -1 and blanks are wildcards. Dates are compared but for the last of their
    unsigned decimal digits; the last two characters of the etiket do not make
    it other than blank. *)
Definition same_text (x y : list Z) : bool := if list_eq_dec Z.eq_dec x y then true else false.
Definition wanted (q : query) (l : label) : bool :=
  ((q_datev q =? -1) || (q_datev q mod 2 ^ 32 / 10 =? l_datev l mod 2 ^ 32 / 10)) &&
  ((q_ip1 q =? -1) || (q_ip1 q =? l_ip1 l)) && ((q_ip2 q =? -1) || (q_ip2 q =? l_ip2 l)) && ((q_ip3 q =? -1) || (q_ip3 q =? l_ip3 l)) &&
  (blank (blank_filled 2 (q_typvar q)) || same_text (kept 2 (q_typvar q)) (l_typvar l)) &&
  (blank (blank_filled 4 (q_nomvar q)) || same_text (kept 4 (q_nomvar q)) (l_nomvar l)) &&
  (blank (blank_filled 10 (q_etiket q)) || same_text (kept 12 (q_etiket q)) (l_etiket l)).
Definition query_ok (q : query) : Prop :=
  (- 2 ^ 31 <= q_datev q < 2 ^ 31 /\ (q_datev q = -1 \/ q_datev q mod 2 ^ 32 mod 10 <= 7)) /\
  (-1 <= q_ip1 q < 2 ^ 28 /\ -1 <= q_ip2 q < 2 ^ 28 /\ -1 <= q_ip3 q < 2 ^ 28) /\
  Forall printable (q_typvar q) /\ Forall printable (q_nomvar q) /\ Forall printable (q_etiket q).

(** The records (page, record) found by a search, in the order of the directory:
    those not deleted, wanted and accepted by the filter of excdes. *)
Definition found (filt : Z -> bool) (q : query) (i : nat) (f : fte) : list (nat * nat) :=
  filter (fun x => live_entry (entry_words f (fst x) (snd x)) && wanted q (record_label f (fst x) (snd x)) && filt (rec_handle i (fst x) (snd x)))
         (positions (page_sizes f)).

(** Repeating a call that takes the handle where to go on from and gives the
    next one and the dimensions of its record, until nothing more is found. *)
Inductive lists (call : sys -> Z -> option (Z * option (Z * Z * Z) * sys)) : sys -> Z -> list (Z * (Z * Z * Z)) -> sys -> Prop :=
| lists_end s h s' : call s h = Some (ERR_NOT_FOUND, None, s') -> lists call s h [] s'
| lists_more s h h' d s' l s'' : call s h = Some (h', Some d, s') -> 0 < h' -> lists call s' h' l s'' -> lists call s h ((h', d) :: l) s''.

(** The date field of an entry is the encoding of a date. *)
Definition dates_coded (f : fte) : Prop :=
  forall k r, In (k, r) (positions (page_sizes f)) -> live_entry (entry_words f k r) = true ->
  exists date, k_date (keys_of (skipn 2 (entry_words f k r))) = octal_date date.

(** ** Writing *)
(** Number of elements of a field, and the words they take at most in the file:
    with a header of 12 bytes and 16 bits each for data type 6; 16 bits each for
    those to be compressed; else with a header of 120 bits. *)
Definition field_size (a : fargs) : Z := a_ni a * a_nj a * Z.max 1 (a_nk a).
Definition field_words (a : fargs) : Z :=
  let n := field_size a in
  let bits := if kind a =? 6 then 8 * (12 + 4 * ((n + 1) / 2))
              else if zips a then 16 * n + (if kind a =? 1 then 160 else 32)
              else n * width a + 120 in
  2 * ((bits + 63) / 64).
(** Arguments with a known meaning: data type of one byte, printable text, dates
    as above. *)
Definition args_ok (a : fargs) : Prop :=
  0 <= a_datyp a < 256 /\ text_ok a /\ 0 <= a_deet a * a_npas a < 2 ^ 31 /\ date_ok (a_date a) (a_deet a) (a_npas a).
(** The caller's array: 32-bit words, at least one for each element; numbers
    within 10^38 for data type 1. *)
Definition field_ok (a : fargs) (fld : list Z) : Prop :=
  words_ok fld /\ field_size a <= Z.of_nat (length fld) /\
  (kind a = 1 -> forall j, (j < Z.to_nat (field_size a))%nat -> number32 (elt fld 1 j) /\ (Rabs (ieee32 (elt fld 1 j)) <= IZR (10 ^ 38))%R).
(** The record that fstecr writes keeps the file below 2^31 words. For the data
    types where fstecr does not check it, the record has less than 2^25 words. *)
Definition space (f : fte) (a : fargs) : Prop :=
  room f (20 + field_words a) /\ (a_datyp a = 6 \/ 128 < a_datyp a -> 20 + field_words a < 2 ^ 25).
(** What rewriting looks for: no date. *)
Definition same_record (a : fargs) : query := mkquery (-1) (a_etiket a) (a_ip1 a) (a_ip2 a) (a_ip3 a) (a_typvar a) (a_nomvar a).
Definition args_label (a : fargs) (datev : Z) : label :=
  mklabel datev (a_ip1 a) (a_ip2 a) (a_ip3 a) (kept 2 (a_typvar a)) (kept 4 (a_nomvar a)) (kept 12 (a_etiket a)).

(** ** Reading *)
(** Elements that the number of bits asked for can hold; for data type 6 the
    numbers its packer handles. *)
Definition field_fits (a : fargs) (fld : list Z) : Prop :=
  let n := Z.to_nat (field_size a) in
  (kind a = 2 -> forall j, (j < n)%nat -> elt fld 1 j < 2 ^ width a) /\
  (kind a = 4 -> forall j, (j < n)%nat -> - 2 ^ (width a - 1) <= as_int (elt fld 1 j) < 2 ^ (width a - 1)) /\
  (kind a = 6 -> packable (firstn n fld)).
(** The compressed records that can be read back: reals in 16 bits, and integers
    below 2^15 when they could be compressed; fields of one level. *)
Definition legible (a : fargs) (fld : list Z) (d : desc) : Prop :=
  (zips a = true -> kind a = 1 -> d_datyp d = 129 -> width a = 16 /\ a_nk a <= 1) /\
  (zips a = true -> kind a = 2 -> d_datyp d = 130 /\ a_nk a <= 1 /\ forall j, (j < Z.to_nat (field_size a))%nat -> elt fld 1 j < 2 ^ 15).
(** The error on a real of data type 1 or 6, for a field between [lo] and [hi]. *)
Definition real_error (t b : Z) (lo hi : R) : R :=
  let m := Rmax (Rabs lo) (Rabs hi) in
  if t =? 6 then ((hi - lo) / bpow radix2 (b - 1) + m / bpow radix2 23)%R
  else (2 * (hi - lo) / bpow radix2 b + m / bpow radix2 23 + bpow radix2 (-126))%R.
Definition near_field (t b : Z) (n : nat) (fld dst : list Z) : Prop :=
  forall lo hi, (forall j, (j < n)%nat -> (lo <= ieee32 (elt fld 1 j) <= hi)%R) ->
  forall j, (j < n)%nat -> number32 (elt dst 1 j) /\ (Rabs (ieee32 (elt dst 1 j) - ieee32 (elt fld 1 j)) <= real_error t b lo hi)%R.
(** The array [dst'] read over [dst]: for data type 0 the bits of the field
    rounded up to words; for types 1 and 6 numbers near those of the field; else
    its elements. *)
Definition reads_field (a : fargs) (fld dst dst' : list Z) : Prop :=
  let n := Z.to_nat (field_size a) in
  if kind a =? 0 then
    let m := Z.to_nat ((field_size a * width a + 31) / 32) in dst' = firstn m fld ++ skipn m dst
  else if (kind a =? 1) || (kind a =? 6) then updated dst dst' 1 n (elt dst' 1) /\ near_field (kind a) (width a) n fld dst'
  else updated dst dst' 1 n (elt fld 1).
(** An array large enough for that. *)
Definition dst_ok (a : fargs) (dst : list Z) : Prop :=
  (Z.to_nat (field_size a) <= length dst)%nat /\ (Z.to_nat ((field_size a * width a + 31) / 32) <= length dst)%nat.
