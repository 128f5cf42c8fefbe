(** Searching with lists of levels: model of c_ip1_all, c_ip1_val and their
    counterparts for ip2 and ip3 (src/fstd98/fstd98.c 3428-3640), init_ip_vals
    (146-163), ip_is_equal (167-225) and the part of c_fstinfx that uses the lists
    (1757-1765, 1820-1861). *)
From Coq Require Import ZArith List Lia Bool.
From Verif Require Import Bits Handles WaFile Xdf XdfSearch XdfOpen XdfHist Flo Convip Fst.
Import ListNotations.
Open Scope Z_scope.
Open Scope opt_scope.

(** fstd98.c 57, 68-74. A flag (ip1s_flag) is set with the first value of a list
    and cleared with the list, so that a list is in use when it is not empty. *)
Definition MAX_IPVALS : nat := 50.
Record iptabs := mktabs { t_ip1 : list Z; t_ip2 : list Z; t_ip3 : list Z }.
Definition no_tabs : iptabs := mktabs [] [] [].
Definition in_use (t : list Z) : bool := match t with [] => false | _ => true end.

(** fstd98.c 3558-3583 (c_ip1_val; c_ip2_val and c_ip3_val are the same on
    their list): code returned, list. A write past the list: [None]. *)
Definition ip_val (t : list Z) (level : f32) (kind : Z) : option (Z * list Z) :=
  if (MAX_IPVALS <=? length t)%nat then None else
  new <- to_ip true level kind ;;
  Some (if (MAX_IPVALS <=? S (length t))%nat then -1 else new, t ++ [new]).
(** fstd98.c 3428-3468 (c_ip1_all; c_ip2_all and c_ip3_all are the same). *)
Definition ip_all (t : list Z) (level : f32) (kind : Z) : option (Z * list Z) :=
  if (MAX_IPVALS <=? length t)%nat then None else
  new <- to_ip true level kind ;;
  if (MAX_IPVALS <=? S (length t))%nat then Some (-1, t ++ [new]) else
  old <- (if kind <? 4 then to_ip false level kind else Some (-9999)) ;;
  Some (new, t ++ [new; old]).

(** fstd98.c 199-206: parts of a new code. *)
Definition code_kind (c : Z) : Z := Z.land (Z.shiftr c 24) 15.
Definition code_exp (c : Z) : Z := Z.land (Z.shiftr c 20) 15.
Definition code_mant (c : Z) : Z := let m := Z.land c 0xFFFFF in if 1000000 <? m then - (m - 1000000) else m.
(** fstd98.c 210-219: the loop that brings the lower exponent [lo] to [hi]; no
    turn is made when lo >= hi, so that both mantissas go through it. Overflow of
    the 64 bit product: [None]. *)
Fixpoint scale (n : nat) (lo hi m : Z) : option Z :=
  match n with
  | O => None
  | S n' => if lo <? hi then if (- 2 ^ 63 <=? m * 10) && (m * 10 <? 2 ^ 63) then scale n' (lo + 1) hi (m * 10) else None else Some m
  end.
(** fstd98.c 176, 190-222: one turn of the loop. *)
Definition ipold_0_9 : list Z := [0; 1820; 1840; 1860; 1880; 1900; 1920; 1940; 1960; 1980].
Definition code_equal (ip target : Z) : option bool :=
  if ip =? target then Some true else
  if (ip <? 10) && (nth (Z.to_nat ip) ipold_0_9 0 =? target) then Some true else
  if negb ((32767 <? ip) && (32767 <? target)) then Some false else
  if negb (code_kind ip =? code_kind target) then Some false else
  if Z.lxor (code_mant ip) (code_mant target) <? 0 then Some false else
  m1 <- scale 17 (code_exp ip) (code_exp target) (code_mant ip) ;;
  m2 <- scale 17 (code_exp target) (code_exp ip) (code_mant target) ;;
  Some (Z.abs (m1 - m2) <=? 1).
Fixpoint equal_loop (t : list Z) (ip : Z) : option bool :=
  match t with
  | [] => Some false
  | target :: t' => b <- code_equal ip target ;; if b : bool then Some true else equal_loop t' ip
  end.
(** fstd98.c 167-188: [target] is the code given to the search. *)
Definition ip_is_equal (target : Z) (t : list Z) (ip : Z) : option bool :=
  if negb (target =? nth 0 t (-1)) then Some false else equal_loop t ip.

(** fstd98.c 1832-1846: true when the record is taken. *)
Definition tabs_take (t : iptabs) (q : query) (k : keys) : option bool :=
  if in_use (t_ip1 t) && (0 <=? q_ip1 q) then
    b1 <- ip_is_equal (q_ip1 q) (t_ip1 t) (k_ip1 k) ;;
    if negb b1 then Some false else
    if in_use (t_ip2 t) && (0 <=? q_ip2 q) then
      b2 <- ip_is_equal (q_ip2 q) (t_ip2 t) (k_ip2 k) ;;
      if negb b2 then Some false else
      if in_use (t_ip3 t) && (0 <=? q_ip3 q) then ip_is_equal (q_ip3 q) (t_ip3 t) (k_ip3 k) else Some true
    else Some true
  else Some true.

(** fstd98.c 1757-1765: no condition on a level that has a list. *)
Definition relaxed (t : iptabs) (q : query) : query :=
  mkquery (q_datev q) (q_etiket q) (if in_use (t_ip1 t) then -1 else q_ip1 q) (if in_use (t_ip2 t) then -1 else q_ip2 q)
          (if in_use (t_ip3 t) then -1 else q_ip3 q) (q_typvar q) (q_nomvar q).
Definition tabs_mask (t : iptabs) (q : query) : list Z := key_words (query_mask (relaxed t q)).

(** fstd98.c 1826, 1830-1849: the keys of each record found replace the keys of the
    search. [n] bounds the number of records looked at. An error of c_xdfprm on a
    record just found is not modelled. *)
Fixpoint ips_loop (n : nat) (junk : nat -> Z) (filt : Z -> bool) (iun : Z) (t : iptabs) (q : query) (h : Z) (s : sys) : option (Z * list Z * sys) :=
  match n with
  | O => None
  | S n' =>
    r <- xdfprm (s_w s) h ;;
    match r with
    | Err _ => None
    | Go (_, _, _, ks) =>
      b <- tabs_take t q (keys_of ks) ;;
      if b : bool then Some (h, ks, s) else
      ' (h', s') <- step (OpLoc junk filt iun (-1) ks 16 (Some (tabs_mask t q))) s ;;
      if h' <? 0 then Some (h', ks, s') else ips_loop n' junk filt iun t q h' s'
    end
  end.
(** fstd98.c 1851-1858: the target of the searches that follow (c_fstsui): the
    levels of the record found. *)
Definition exact_mask (t : iptabs) (q : query) : list Z :=
  key_words (query_mask (mkquery (q_datev q) (q_etiket q) (if in_use (t_ip1 t) then 0 else q_ip1 q) (if in_use (t_ip2 t) then 0 else q_ip2 q)
                                 (if in_use (t_ip3 t) then 0 else q_ip3 q) (q_typvar q) (q_nomvar q))).
Definition set_target (i : nat) (ks msk : list Z) (s : sys) : option sys :=
  f <- w_file (s_w s) i ;;
  tm <- kp_write (f_kp f) (f_hdr f) (f_target f) ks (f_cmask f) msk ;;
  Some (mksys (setf (s_w s) i (Some (f_settgt f (fst tm) (snd tm) (f_vt f)))) (s_fs s)).
(** c_fstinfx; [handle] -2 for c_fstinf. The lists are cleared, but when the
    handle is not one of the file. *)
Definition fstinfx_ips (n : nat) (junk : nat -> Z) (filt : Z -> bool) (handle iun : Z) (q : query) (t : iptabs) (s : sys)
  : option (Z * option (Z * Z * Z) * iptabs * sys) :=
  if negb (in_use (t_ip1 t) || in_use (t_ip2 t) || in_use (t_ip3 t)) then ' (h, d, s1) <- fstinfx junk filt handle iun q s ;; Some (h, d, t, s1) else
  match file_index (s_w s) iun with
  | None => Some (ERR_NO_FILE, None, t, s)
  | Some i =>
    if (0 <? handle) && negb (Nat.eqb (hidx (s_w s) handle) i) then Some (ERR_BAD_HNDL, None, t, s) else
    ' (h, s1) <- step (OpLoc junk filt iun (if handle =? -2 then 0 else handle) (key_words (query_keys q)) 16 (Some (tabs_mask t q))) s ;;
    if h <? 0 then Some (h, None, no_tabs, s1) else
    ' (h', ks, s2) <- ips_loop n junk filt iun t q h s1 ;;
    s3 <- set_target i ks (exact_mask t q) s2 ;;
    let k := keys_of ks in
    Some (h', Some (k_ni k, k_nj k, k_nk k), no_tabs, s3)
  end.

(** ** Vocabulary of C61 *)

(** The number that a new code stands for, in units that suit all exponents, and
    the last digit of its mantissa. *)
Definition code_value (c : Z) : Z := code_mant c * 10 ^ (15 - code_exp c).
Definition code_step (c : Z) : Z := 10 ^ (15 - code_exp c).
(** Two codes stand for the same level: equal codes; a small number and the old
    code of as many millibars; new codes of one kind, on the same side of zero,
    that differ by at most one in the last digit of the finer one. *)
Definition same_level (c t : Z) : Prop :=
  c = t \/ (0 <= c < 10 /\ t = nth (Z.to_nat c) ipold_0_9 0) \/
  (32767 < c /\ 32767 < t /\ code_kind c = code_kind t /\ (code_mant c < 0 <-> code_mant t < 0) /\
   Z.abs (code_value c - code_value t) <= Z.min (code_step c) (code_step t)).
(** No 64 bit overflow in the comparison. *)
Definition comparable (c t : Z) : Prop := 32767 < c -> 32767 < t -> code_kind c = code_kind t -> Z.abs (code_exp c - code_exp t) <= 12.
Definition listed (t : list Z) (c : Z) : Prop := exists x, In x t /\ same_level c x.
