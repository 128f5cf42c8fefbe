(** Report functions of src/burp98_f: parameters of a report in a file, update
    of the header, element codes, block types. Arguments are 32-bit integers
    given as [Z]; IAND, RSHIFT and the like act on them as on words. *)
From Coq Require Import ZArith List Bool.
From Verif Require Import Bits BitIO Handles WaFile Xdf XdfKeys XdfBuf Burp.
Import ListNotations.
Open Scope Z_scope.
Open Scope opt_scope.

(** mrfprm.F90 67-122: return code, parameters (those that are not keys are 0),
    length in words. Supplementary keys are not modelled. *)
Definition prm_head (enforc8 : bool) (k : nat -> Z) (stnid : list Z) : rhead :=
  mkrhead stnid (k 16%nat * 100 + k 17%nat) (k 9%nat) (k 14%nat) (k 10%nat) (k 11%nat) (k 13%nat) (k 15%nat) 0 0 (key_date enforc8 (k 12%nat)) 0 0.
Definition mrfprm (enforc8 : bool) (w : world) (handle : Z) : option (Z * option (rhead * Z)) :=
  r <- xdfprm w handle ;;
  match r with
  | Err c => Some (c, None)
  | Go (_, lng, _, ks) => Some (0, Some (prm_head enforc8 (fun i => nth i ks 0) (firstn 9 ks), lng * 64 / 32))
  end.

(** mrbupd.F90 95-163: the keys; those that are -1, and the characters that are
    asterisks, are left as they are. The number of blocks is written too. The
    date -1 is below 999999. *)
Definition update_keys (h : rhead) : list Z :=
  map (fun c => if c =? 42 then 2 ^ 32 - 1 else c) (firstn 9 (rh_stnid h ++ repeat 32 9)) ++
  map w32 [rh_flgs h; rh_lati h; rh_long h; date_key (rh_date h); rh_dx h; rh_idtyp h; rh_dy h;
           (if rh_temps h =? -1 then -1 else rh_temps h / 100); (if rh_temps h =? -1 then -1 else rh_temps h mod 100)].
Definition update_info (n : nat) (h : rhead) : list Z := map w32 [Z.of_nat n; rh_oars h; rh_elev h; rh_drcv h; rh_run h].
Definition mrbupd (w : world) (mask : nat -> Z) (iun : Z) (r : report) (h : rhead) : option (Z * report) :=
  ' x <- xdfupd w mask iun (r_b r) 1 (update_keys h) 18 (update_info (r_nblk r) h) 5 ;;
  Some (fst x, with_buf r (snd x)).

(** mrbcov.F90 24-60; defi.cdk: BP2B = 14, BP6B = 8; masques.cdk. / and MOD
    truncate. *)
Definition mrbcov (elem : Z) : Z :=
  let ii := elem ÷ 100000 in
  let elem' := Z.rem elem 100000 in
  let vi := elem' ÷ 1000 in
  let viii := Z.rem elem' 1000 in
  Z.lor (Z.lor viii (Z.shiftl (Z.land vi 63) 8)) (Z.shiftl (Z.land ii 3) 14).
(** mrbdcv.F90 24-60 *)
Definition mrbdcv (elem : Z) : Z := Z.land (Z.shiftr elem 14) 3 * 100000 + Z.land (Z.shiftr elem 8) 63 * 1000 + Z.land elem 255.
(** mrbcol.F90, mrbdcl: the same over a list. *)
Definition mrbcol (l : list Z) : list Z := map mrbcov l.
Definition mrbdcl (l : list Z) : list Z := map mrbdcv l.

(** mrbtyp.F90: result, bknat, bktyp, bkstp. codes.cdk: ERBTYP. *)
Definition ERBTYP : Z := 38.
Definition mrbtyp (bknat bktyp bkstp btyp : Z) : Z * (Z * Z * Z) :=
  if btyp <? -1 then (ERBTYP, (bknat, bktyp, bkstp))
  else if btyp =? -1 then
    (Z.lor (Z.lor (Z.land bkstp 15) (Z.shiftl (Z.land bktyp 127) 4)) (Z.shiftl (Z.land bknat 15) 11), (bknat, bktyp, bkstp))
  else (0, (Z.land (Z.shiftr btyp 11) 15, Z.land (Z.shiftr btyp 4) 127, Z.land btyp 15)).

(** mrblocx.F90 55-62 *)
Definition locx_type (bknat bktyp bkstp : Z) : Z :=
  Z.lor (Z.lor (Z.land bkstp (Z.lor 268435456 15)) (Z.lor (Z.land 536870912 bktyp) (Z.shiftl (Z.land bktyp 127) 4)))
        (Z.lor (Z.land 1073741824 bknat) (Z.shiftl (Z.land bknat 15) 11)).
Definition mrblocx (r : report) (bfam bdesc bknat bktyp bkstp : Z) (blkno : nat) : option Z :=
  mrbloc r bfam bdesc (locx_type bknat bktyp bkstp) blkno.
