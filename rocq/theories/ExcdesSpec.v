(** What the selection of records should do, apart from excdes_new.c: sets of
    criteria, wanted or unwanted, and which records they let through. Of the
    model it uses the arguments of the calls ([suppl], [keeps]) and the record
    ([params]); the levels are those of ConvertIp ([from_ip]) and the time
    between two dates is what difdatr says ([Dates.difdat], 5 second steps). *)
From Coq Require Import ZArith List Bool Reals.
From Flocq Require Import Core BinarySingleNaN.
From Verif Require Import Flo Convip Excdes.
From Verif Require Dates.
Import ListNotations.
Open Scope Z_scope.

(** * One criterion *)
Definition text := list Z.
(** The text [a], cut to [n] characters, is the start of [s]. *)
Definition begins (n : nat) (a s : text) : Prop := exists rest, s = firstn n a ++ rest.
(** A list of texts: a first one that starts with a blank asks for nothing. *)
Definition text_ok (n : nat) (l : list text) (s : text) : Prop := (exists r, hd [] l = 32 :: r) \/ Exists (fun a => begins n a s) l.

Definition value (ip : Z) : R := r32 (fst (from_ip ip)).
Definition kind (ip : Z) : Z := snd (from_ip ip).
(** The ratio of the two values, in single precision, is within a millionth of 1. *)
Definition same_value (ip v : Z) : Prop := kind ip = kind v /\ value v <> 0%R /\ (Rabs (rnd32 (value ip / value v) - 1) < / 1000000)%R.
Definition between (v w ip : Z) : Prop :=
  kind ip = kind v /\ kind ip = kind w /\ (Rmin (value v) (value w) <= value ip <= Rmax (value v) (value w))%R.
Definition ip_ok (decodable : bool) (l : list Z) (ip : Z) : Prop :=
  match l with
  | -1 :: _ => True
  | [-2; w] => decodable = true /\ kind ip = kind w /\ (value ip <= value w)%R
  | [v; -2] => decodable = true /\ kind ip = kind v /\ (value v <= value ip)%R
  | [v; -2; w] => decodable = true /\ between v w ip
  | l => In ip l \/ decodable = true /\ Exists (same_value ip) l
  end.

(** [d] is at least as late as [v]; it comes a whole number of times [h] hours after [v]. *)
Definition not_before (d v : Z) : Prop := exists k, Dates.difdat false d v = Some k /\ 0 <= k.
Definition not_after (d v : Z) : Prop := exists k, Dates.difdat false d v = Some k /\ k <= 0.
Definition on_step (d v h : Z) : Prop := exists k, Dates.difdat false d v = Some k /\ (720 * h | k).
Definition date_ok (l : list Z) (d : Z) : Prop :=
  match l with
  | -1 :: _ => True
  | [-2; w] => not_after d w
  | [v; -2] => not_before d v
  | [v; -2; w] => not_before d v /\ not_after d w
  | [v; -2; w; -3; h] => not_before d v /\ not_after d w /\ on_step d v h
  | l => In d l
  end.

Definition as_asked (asked has : Z) : Prop := asked = -1 \/ asked = has.
Definition suppl_ok (s : suppl) (q : params) : Prop :=
  as_asked (s_ni s) (q_ni q) /\ as_asked (s_nj s) (q_nj q) /\ as_asked (s_nk s) (q_nk q) /\
  as_asked (s_ig1 s) (q_ig1 q) /\ as_asked (s_ig2 s) (q_ig2 q) /\ as_asked (s_ig3 s) (q_ig3 q) /\ as_asked (s_ig4 s) (q_ig4 q) /\
  (s_grtyp s = 32 \/ s_grtyp s = q_grtyp q).

(** * A set of criteria, and all the sets *)
Record sset := { on : bool; want : bool; x_etik : option (list text); x_nom : option (list text); x_typ : option (list text);
  x_date : option (list Z); x_ip1 : option (list Z); x_ip2 : option (list Z); x_ip3 : option (list Z); x_suppl : option suppl }.
Definition asks {A} (o : option A) (P : A -> Prop) : Prop := match o with None => True | Some a => P a end.
(** The record satisfies every criterion given. *)
Definition satisfies (noip : text -> bool) (x : sset) (q : params) : Prop :=
  let dec := negb (noip (q_nomvar q)) in
  on x = true /\ asks (x_suppl x) (fun s => suppl_ok s q) /\
  asks (x_etik x) (fun l => text_ok 12 l (q_etiket q)) /\ asks (x_nom x) (fun l => text_ok 4 l (q_nomvar q)) /\ asks (x_typ x) (fun l => text_ok 2 l (q_typvar q)) /\
  asks (x_date x) (fun l => date_ok l (q_date q)) /\
  asks (x_ip1 x) (fun l => ip_ok dec l (q_ip1 q)) /\ asks (x_ip2 x) (fun l => ip_ok dec l (q_ip2 q)) /\ asks (x_ip3 x) (fun l => ip_ok dec l (q_ip3 q)).

Record sstate := { off : bool; lo : Z; hi : Z; cur : Z; mode : bool; sets : Z -> sset }.
Definition in_group (s : sstate) (n : Z) : Prop := lo s <= n <= hi s.
(** The first set that the record satisfies decides. Without one, the record is
    taken when no set says what is wanted. A record is taken with the number of
    its set plus 1, or with 1; 0 is a refusal. *)
Definition verdict (noip : text -> bool) (s : sstate) (q : params) (v : Z) : Prop :=
  if off s then v = 1
  else
    (exists n, in_group s n /\ satisfies noip (sets s n) q /\ (forall m, in_group s m -> m < n -> ~ satisfies noip (sets s m) q) /\
               v = if want (sets s n) then n + 1 else 0) \/
    (forall n, in_group s n -> ~ satisfies noip (sets s n) q) /\
    ((exists n, in_group s n /\ on (sets s n) = true /\ want (sets s n) = true) /\ v = 0 \/
     (forall n, in_group s n -> on (sets s n) = true -> want (sets s n) = false) /\ v = 1).

(** * The calls *)
(** The set: the current one, or a set given with its mode (1 is desire). *)
Inductive target := Current | Given (n des : Z).
Inductive criterion :=
  | Ip (which : Z) (arr : list Z) (nelm : Z)
  | Date (arr : list Z) (nelm : Z)
  | Etiket (l : list text) (nelm : Z)
  | Nomvar (l : list text) (nelm : Z)
  | Typvar (l : list text) (nelm : Z)
  | Suppl (s : suppl).
Inductive call := Init | Off | On | Group (a b : Z) | Desire | Exclure | Forget (n : Z) (k : keeps) | Select (g : target) (c : criterion).

Definition no_set : sset := {| on := false; want := false; x_etik := None; x_nom := None; x_typ := None; x_date := None; x_ip1 := None; x_ip2 := None; x_ip3 := None; x_suppl := None |}.
Definition no_sets (o : bool) : sstate := {| off := o; lo := 0; hi := 49; cur := -1; mode := true; sets := fun _ => no_set |}.
Definition with_criterion (x : sset) (w : bool) (c : criterion) : sset :=
  {| on := true; want := w;
     x_etik := match c with Etiket l n => Some (firstn (Z.to_nat n) l) | _ => x_etik x end;
     x_nom := match c with Nomvar l n => Some (firstn (Z.to_nat n) l) | _ => x_nom x end;
     x_typ := match c with Typvar l n => Some (firstn (Z.to_nat n) l) | _ => x_typ x end;
     x_date := match c with Date l n => Some (firstn (Z.to_nat n) l) | _ => x_date x end;
     x_ip1 := match c with Ip w l n => if w =? 1 then Some (firstn (Z.to_nat n) l) else x_ip1 x | _ => x_ip1 x end;
     x_ip2 := match c with Ip w l n => if w =? 2 then Some (firstn (Z.to_nat n) l) else x_ip2 x | _ => x_ip2 x end;
     x_ip3 := match c with Ip w l n => if w =? 3 then Some (firstn (Z.to_nat n) l) else x_ip3 x | _ => x_ip3 x end;
     x_suppl := match c with Suppl s => Some s | _ => x_suppl x end |}.
Definition without (x : sset) (k : keeps) : sset :=
  {| on := false; want := false; x_etik := if k_etik k then x_etik x else None; x_nom := if k_nom k then x_nom x else None; x_typ := if k_typ k then x_typ x else None;
     x_date := if k_dates k then x_date x else None; x_ip1 := if k_ip1 k then x_ip1 x else None; x_ip2 := if k_ip2 k then x_ip2 x else None; x_ip3 := if k_ip3 k then x_ip3 x else None;
     x_suppl := None |}.
Definition with_set (s : sstate) (n : Z) (x : sset) : sstate :=
  {| off := off s; lo := lo s; hi := hi s; cur := cur s; mode := mode s; sets := fun m => if m =? n then x else sets s m |}.
Definition after (s : sstate) (c : call) : sstate :=
  match c with
  | Init => no_sets (off s)
  | Off => {| off := true; lo := lo s; hi := hi s; cur := cur s; mode := mode s; sets := sets s |}
  | On => {| off := false; lo := lo s; hi := hi s; cur := cur s; mode := mode s; sets := sets s |}
  | Group a b => {| off := off s; lo := a; hi := b; cur := cur s; mode := mode s; sets := sets s |}
  | Desire => {| off := off s; lo := lo s; hi := hi s; cur := cur s + 1; mode := true; sets := sets s |}
  | Exclure => {| off := off s; lo := lo s; hi := hi s; cur := cur s + 1; mode := false; sets := sets s |}
  | Forget n k => with_set s n (without (sets s n) k)
  | Select g c =>
      let '(n, w) := match g with Current => (cur s, mode s) | Given n des => (n, des =? 1) end in
      with_set s n (with_criterion (sets s n) w c)
  end.

(** * The calls as they are made on the model *)
Definition select (t : table) (n des : Z) (c : criterion) : option (Z * table) :=
  match c with
  | Ip which arr nelm => select_ip which t n des arr nelm
  | Date arr nelm => select_date t n des arr nelm
  | Etiket l nelm => select_etiquette t n des l nelm
  | Nomvar l nelm => select_nomvar t n des l nelm
  | Typvar l nelm => select_typvar t n des l nelm
  | Suppl s => select_suppl t n des s
  end.
Definition run_call (t : table) (c : call) : option (Z * table) :=
  match c with
  | Init => Some (0, requetes_init t)
  | Off => Some (set_off t true)
  | On => Some (set_off t false)
  | Group a b => Some (select_groupset t a b)
  | Desire => Some (filtre t 1)
  | Exclure => Some (filtre t 0)
  | Forget n k => requetes_reset t n k
  | Select Current c => select t (t_bundle t) (t_desire t) c
  | Select (Given n des) c => select t n des c
  end.
(** A history of calls that all succeed (no status below 0, nothing undefined). *)
Inductive runs : table -> list call -> table -> Prop :=
  | runs_nil t : runs t [] t
  | runs_cons t c st t' cs t'' : run_call t c = Some (st, t') -> 0 <= st -> runs t' cs t'' -> runs t (c :: cs) t''.

(** * The calls the theorems are about *)
Definition word (v : Z) : Prop := - 2 ^ 31 <= v < 2 ^ 31.
Definition plain_text (s : text) : Prop := Forall (fun c => c <> 0) s.
(** Lists of ip: all values; values; a closed interval. The open intervals
    [v; -2] and [-2; w] are left out: see c57_open_refuted. *)
Inductive ip_list : list Z -> Prop :=
  | il_any l : ip_list (-1 :: l)
  | il_values l : l <> [] -> Forall (fun v => 0 <= v < 2 ^ 31) l -> ip_list l
  | il_between v w : 0 <= v < 2 ^ 31 -> 0 <= w < 2 ^ 31 -> ip_list [v; -2; w].
(** Lists of dates: all; values; intervals of dates above 0 (the extended dates
    are below: see c57_extended_refuted); every so many hours in an interval.
    Both ways by which difdatr counts must know the date. *)
Definition stamp (v : Z) : Prop := 0 < v < 2 ^ 31 /\ Dates.mode_1 v <> None /\ Dates.ext_hours v <> None.
Inductive date_list : list Z -> Prop :=
  | dl_any l : date_list (-1 :: l)
  | dl_values l : l <> [] -> Forall word l -> Forall (fun v => v <> -2 /\ v <> -3) l -> hd 0 l <> -1 -> date_list l
  | dl_until w : stamp w -> date_list [-2; w]
  | dl_from v : stamp v -> date_list [v; -2]
  | dl_between v w : stamp v -> stamp w -> date_list [v; -2; w]
  | dl_every v w h : stamp v -> stamp w -> 1 <= h <= 596523 -> date_list [v; -2; w; -3; h].
Definition fair (c : call) : Prop :=
  match c with
  | Group a b => 0 <= a
  | Forget n k => 0 <= n
  | Select _ (Ip which arr nelm) => 1 <= which <= 3 /\ ip_list (firstn (Z.to_nat nelm) arr)
  | Select _ (Date arr nelm) => date_list (firstn (Z.to_nat nelm) arr)
  | Select _ (Etiket l nelm) | Select _ (Nomvar l nelm) | Select _ (Typvar l nelm) => Forall plain_text (firstn (Z.to_nat nelm) l)
  | Select _ (Suppl s) => s_ig4 s = -1   (* see c57_ig4_refuted *)
  | _ => True
  end.
(** A record of words and texts whose date does not come 5 seconds after a step
    of a list "every h hours": there the code may go either way. *)
Definition off_step (l : list Z) (d : Z) : Prop :=
  match l with
  | [v; -2; _; -3; h] => forall k, Dates.difdat false d v = Some k -> k mod (720 * h) <> 1
  | _ => True
  end.
Definition a_record (q : params) : Prop :=
  word (q_date q) /\ word (q_ip1 q) /\ word (q_ip2 q) /\ word (q_ip3 q) /\ plain_text (q_etiket q) /\ plain_text (q_nomvar q) /\ plain_text (q_typvar q).
Definition clear_of (s : sstate) (q : params) : Prop := forall n, asks (x_date (sets s n)) (fun l => off_step l (q_date q)).
