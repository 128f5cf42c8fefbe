(** Vocabulary of the properties of whole reports: headers, copies, histories. *)
From Coq Require Import ZArith List Bool.
From Verif Require Import Bits BitIO SpecPack Handles WaFile Xdf XdfKeys XdfBuf Burp Burp2 BurpFile BurpSpec.
Import ListNotations.
Open Scope Z_scope.

(** ** Headers *)

(** Values that the keys can hold; characters other than capital letters in
    disguise; years 1900 to 2699, two digits standing for 19xx. *)
Definition char_ok (c : Z) : Prop := 0 <= c < 96 \/ 97 <= c <= 122.
Definition bits_ok (n v : Z) : Prop := 0 <= v < 2 ^ n.
Definition date_ok (d : Z) : Prop := (0 <= d <= 999999 \/ 19000000 <= d < 27000000) /\ 1 <= (d / 100) mod 100 <= 12.
Definition head_fits (h : rhead) : Prop :=
  Forall char_ok (rh_stnid h) /\ bits_ok 6 (rh_temps h / 100) /\ bits_ok 6 (rh_temps h mod 100) /\ bits_ok 24 (rh_flgs h) /\ bits_ok 8 (rh_idtyp h) /\
  bits_ok 16 (rh_lati h) /\ bits_ok 16 (rh_long h) /\ bits_ok 12 (rh_dx h) /\ bits_ok 12 (rh_dy h) /\ bits_ok 13 (rh_elev h) /\ bits_ok 11 (rh_drcv h) /\
  bits_ok 16 (rh_oars h) /\ bits_ok 8 (rh_run h) /\ date_ok (rh_date h).

(** How the header reads: nine capital letters, and the date with the century
    when it is asked for or the year is not 19xx. *)
Definition capital (c : Z) : Z := if 97 <=? c then c - 32 else c.
Definition nine (l : list Z) : list Z := firstn 9 (l ++ repeat 32 9).
Definition full_date (d : Z) : Z := if d <=? 999999 then 19000000 + d else d.
Definition date_seen (enforc8 : bool) (d : Z) : Z :=
  if enforc8 || (20000000 <=? full_date d) then full_date d else full_date d - 19000000.
Definition seen (enforc8 : bool) (h : rhead) : rhead :=
  mkrhead (map capital (nine (rh_stnid h))) (rh_temps h) (rh_flgs h) (rh_idtyp h) (rh_lati h) (rh_long h) (rh_dx h) (rh_dy h) (rh_elev h) (rh_drcv h)
          (date_seen enforc8 (rh_date h)) (rh_oars h) (rh_run h).

(** Updates: -1, or an asterisk, leaves a value as it is. *)
Definition or_less (P : Z -> Prop) (v : Z) : Prop := v = -1 \/ P v.
Definition update_fits (u : rhead) : Prop :=
  Forall char_ok (rh_stnid u) /\ or_less (fun v => bits_ok 6 (v / 100) /\ bits_ok 6 (v mod 100)) (rh_temps u) /\ or_less (bits_ok 24) (rh_flgs u) /\ or_less (bits_ok 8) (rh_idtyp u) /\
  or_less (bits_ok 16) (rh_lati u) /\ or_less (bits_ok 16) (rh_long u) /\ or_less (bits_ok 12) (rh_dx u) /\ or_less (bits_ok 12) (rh_dy u) /\ or_less (bits_ok 13) (rh_elev u) /\
  or_less (bits_ok 11) (rh_drcv u) /\ or_less (bits_ok 16) (rh_oars u) /\ or_less (bits_ok 8) (rh_run u) /\ or_less date_ok (rh_date u).
Definition other (old new : Z) : Z := if new =? -1 then old else new.
Definition updated (h u : rhead) : rhead :=
  mkrhead (map (fun j => let c := nth j (nine (rh_stnid u)) 0 in if c =? 42 then nth j (nine (rh_stnid h)) 0 else c) (seq 0 9))
    (other (rh_temps h) (rh_temps u)) (other (rh_flgs h) (rh_flgs u)) (other (rh_idtyp h) (rh_idtyp u)) (other (rh_lati h) (rh_lati u)) (other (rh_long h) (rh_long u))
    (other (rh_dx h) (rh_dx u)) (other (rh_dy h) (rh_dy u)) (other (rh_elev h) (rh_elev u)) (other (rh_drcv h) (rh_drcv u)) (other (rh_date h) (rh_date u))
    (other (rh_oars h) (rh_oars u)) (other (rh_run h) (rh_run u)).

(** ** Reports *)

(** The buffer is as long as its header says, with room for the keys. *)
Definition fresh (b : buffer) : Prop := 19 < b_nwords b < 2 ^ 27 /\ Z.of_nat (length (b_data b)) + 9 = b_nwords b.

(** [r'] contains the words of [r], the number of blocks kept in its header and
    the words 0 and 1, which describe a record in a file, excepted; the record
    type, in word 0, is the same. *)
Definition copy_of (r r' : report) : Prop :=
  r_nblk r' = r_nblk r /\ r_buf9 r' = r_buf9 r /\ b_nbits (r_b r') = b_nbits (r_b r) /\ b_didx (r_b r') = b_didx (r_b r) /\ b_ridx (r_b r') = b_ridx (r_b r) /\
  words_ok (b_data (r_b r')) /\ b_nbits (r_b r) / 32 < Z.of_nat (length (b_data (r_b r'))) < 2 ^ 27 /\ Z.of_nat (length (b_data (r_b r'))) <= b_nwords (r_b r') /\
  (forall j, (2 <= j)%nat -> j <> 8%nat -> Z.of_nat j < b_nbits (r_b r) / 32 -> nth j (b_data (r_b r')) 0 = nth j (b_data (r_b r)) 0) /\
  nth 8 (b_data (r_b r')) 0 mod 2 ^ 16 = nth 8 (b_data (r_b r)) 0 mod 2 ^ 16 /\ w_idtyp (nth 0 (b_data (r_b r')) 0) = w_idtyp (nth 0 (b_data (r_b r)) 0).

(** The report [r], made by mrbini, has the header [h] and contains the blocks
    [ks] after successful calls to mrbadd, mrbdel, mrbrep and mrbupd, copies
    included. *)
Inductive built (orc : oracle) : rhead -> report -> list block -> Prop :=
| built_ini h w mask iun buf i f r : file_index w iun = Some i -> w_file w i = Some f -> burp_file f -> fresh buf ->
    mrbini w mask iun buf h = Some (0, r) -> built orc h r []
| built_add h junk r ks nele nval nt bfam bdesc btyp nbit datyp lst tbl k r' lst' : built orc h r ks -> acceptable nele nval nt btyp nbit datyp lst tbl ->
    new_block nele nval nt bfam bdesc btyp nbit datyp lst tbl = Some k -> (needs (bk_datyp k) (bk_size k) (bk_nbit k) <= length tbl)%nat -> (packed datyp = true -> (bk_size k <= length tbl)%nat) ->
    room r (ks ++ [k]) -> mrbadd orc 1 junk r nele nval nt bfam bdesc btyp nbit datyp lst tbl = Some (0, r', lst') -> built orc h r' (ks ++ [k])
| built_del h r ks i k r' : built orc h r ks -> nth_error ks i = Some k -> bk_datyp k <> 3 -> mrbdel orc 1 r (S i) = Some (0, r') ->
    built orc h r' (firstn i ks ++ skipn (S i) ks)
| built_rep h r ks i k tbl k' r' : built orc h r ks -> nth_error ks i = Some k -> bk_datyp k <> 3 -> words_ok tbl -> with_vals k tbl = Some k' ->
    (needs (bk_datyp k') (bk_size k) (bk_nbit k') <= length tbl)%nat -> (packed (bk_datyp k) = true -> (bk_size k <= length tbl)%nat) ->
    room r (firstn i ks ++ k' :: skipn (S i) ks) -> mrbrep orc 1 r (S i) tbl = Some (0, r') -> built orc h r' (firstn i ks ++ k' :: skipn (S i) ks)
| built_upd h w mask iun i f r ks u r' : built orc h r ks -> file_index w iun = Some i -> w_file w i = Some f -> burp_file f -> update_fits u ->
    mrbupd w mask iun r u = Some (0, r') -> built orc (updated h u) r' ks
| built_copy h r ks r' : built orc h r ks -> copy_of r r' -> built orc h r' ks.

(** ** Block searches *)

(** A description goes with a family only, and agrees with the one that is in
    the upper bits of the family. *)
Definition search_ok (bfam bdesc : Z) : Prop :=
  if bfam =? -1 then bdesc = 0 \/ bdesc = -1 else bdesc = 0 \/ bdesc = -1 \/ (bfam / 64) mod 64 = 0 \/ (bfam / 64) mod 64 = bdesc.
(** Blocks wanted by mrbloc: any family (-1), or that family; any type (-1), or
    that type, its parts excepted for which bits 28, 29, 30 are set. *)
Definition fits_family (bfam bdesc : Z) (fam : Z) : bool :=
  (bfam =? -1) || match family bfam (if bdesc =? -1 then 0 else bdesc) with Some x => x =? fam | None => false end.
Definition wanted (bfam bdesc btyp : Z) (k : block) : bool := fits_family bfam bdesc (bk_bfam k) && fits_type btyp (bk_btyp k).
(** The first block, from number [n] + 1 on, that [P] holds of. *)
Definition first_after (P : block -> bool) (ks : list block) (n : nat) (c : Z) : Prop :=
  (exists i k, c = Z.of_nat i + 1 /\ (n <= i)%nat /\ nth_error ks i = Some k /\ P k = true /\ (forall j k', (n <= j < i)%nat -> nth_error ks j = Some k' -> P k' = false)) \/
  (c = -1 /\ forall j k', (n <= j)%nat -> nth_error ks j = Some k' -> P k' = false).

(** Blocks wanted by mrblocx: each part of the type is any (-1) or that one. *)
Definition part_ok (n v : Z) : Prop := v = -1 \/ 0 <= v < 2 ^ n.
Definition part_is (v x : Z) : bool := (v =? -1) || (v =? x).
Definition wantedx (bfam bdesc bknat bktyp bkstp : Z) (k : block) : bool :=
  fits_family bfam bdesc (bk_bfam k) && part_is bknat (bk_btyp k / 2048) && part_is bktyp ((bk_btyp k / 16) mod 128) && part_is bkstp (bk_btyp k mod 16).

(** ** Reports in files *)

(** The buffer of [r0] can take the report [r]. *)
Definition receives (r0 r : report) : Prop :=
  words_ok (b_data (r_b r0)) /\ Z.of_nat (length (b_data (r_b r0))) + 9 = b_nwords (r_b r0) /\ b_nwords (r_b r0) < 2 ^ 27 /\
  b_nbits (r_b r) / 32 < Z.of_nat (length (b_data (r_b r0))).
(** What mrfprm gives of the header. *)
Definition seen_keys (enforc8 : bool) (h : rhead) : rhead :=
  let v := seen enforc8 h in
  mkrhead (rh_stnid v) (rh_temps v) (rh_flgs v) (rh_idtyp v) (rh_lati v) (rh_long v) (rh_dx v) (rh_dy v) 0 0 (rh_date v) 0 0.

(** ** Searches for reports *)

(** Arguments that the keys can hold, or -1. *)
Definition search_fits (stnid : list Z) (idtyp lat lon date temps : Z) : Prop :=
  Forall char_ok stnid /\ or_less (bits_ok 8) idtyp /\ or_less (bits_ok 16) lat /\ or_less (bits_ok 16) lon /\ or_less date_ok date /\ or_less (fun v => bits_ok 6 (v / 100)) temps.
(** The reports sought: the nine characters of the station are the same but for
    case and where an asterisk is given, and so are the type, the latitude, the
    longitude, the day and the hour, when they are not -1. *)
Definition sought (stnid : list Z) (idtyp lat lon date temps : Z) (h : rhead) : bool :=
  forallb (fun j => let c := nth j (nine stnid) 0 in (c =? 42) || (capital c =? capital (nth j (nine (rh_stnid h)) 0))) (seq 0 9) &&
  ((idtyp =? -1) || (idtyp =? rh_idtyp h)) && ((lat =? -1) || (lat =? rh_lati h)) && ((lon =? -1) || (lon =? rh_long h)) &&
  ((date =? -1) || (full_date date =? full_date (rh_date h))) && ((temps =? -1) || (temps / 100 =? rh_temps h / 100)).
