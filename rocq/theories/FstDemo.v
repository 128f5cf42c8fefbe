(** A standard file made, written and read: the hypotheses of P_Fst.v are met. *)
From Coq Require Import ZArith List Lia Bool.
From Verif Require Import Bits BitIO Handles WaFile Xdf XdfLib XdfSearch XdfOpen XdfInv XdfHist XdfSpec XdfThm XdfPut2 XdfDemo Dates DatesSpec SpecPack Fst FstSpec.
Import ListNotations.
Open Scope Z_scope.

Definition no_orc : oracle := fun _ _ _ => 0.
(** 2020/01/15 12:00:00, 6 hours, a field of 2 x 2 integers of 16 bits. *)
Definition demo_args (date : Z) (nomvar : list Z) : fargs :=
  mkargs (-16) date 3600 6 2 2 1 500 6 0 [80] nomvar [116; 101; 115; 116] [76] 1 66051 3 4 2.
(** "TT", "gz" *)
Definition tt : list Z := [84; 84].
Definition gz : list Z := [103; 122].
Definition demo_date : Z := 439089200.
Definition demo_field : list Z := [1; 65535; 3; 4].
Definition any_query : query := mkquery (-1) [] (-1) (-1) (-1) [] [].
Definition named (n : list Z) : query := mkquery (-1) [] (-1) (-1) (-1) [] n.

Definition after {A} (r : option (A * sys)) : sys := match r with Some (_, s) => s | None => init_sys end.
Definition code {A} (r : option (A * sys)) : option A := option_map fst r.
Lemma code_after {A} (r : option (A * sys)) c : code r = Some c -> exists s, r = Some (c, s).
Proof. destruct r as [[x s]|]; cbn; [|congruence]. intros H. exists s. congruence. Qed.

Definition fst0 : sys := final [fst_create zeros 0 10].
Notation wr a s rewrit := (fstecr no_orc zeros 10 a demo_field rewrit s).
Definition fst1 : sys := after (wr (demo_args demo_date tt) fst0 false).
Definition fst2 : sys := after (wr (demo_args demo_date gz) fst1 false).

(** A record of data type [datyp] written to an empty file, its data type there,
    what is read of it in an array of [n] words. *)
Definition type_args (npak datyp ni nj nk : Z) : fargs := mkargs npak demo_date 3600 6 ni nj nk 500 6 0 [80] tt [116; 101; 115; 116] [76] 1 66051 3 4 datyp.
Definition ramp (n : nat) : list Z := map (fun k => 10 + Z.of_nat k) (seq 0 n).
Definition reals (m n : nat) : list Z := map (fun k => 0x3F800000 + 65536 * Z.of_nat (Nat.min m k)) (seq 0 n).
Definition trip (a : fargs) (fld : list Z) (n : nat) : option (Z * option (Z * list Z) * option Z * option (Z * option (Z * Z * Z) * list Z)) :=
  match fstecr no_orc zeros 10 a fld false fst0 with
  | Some (c, s1) => Some (c, option_map fst (fstinl 3 zeros (fun _ => true) 10 any_query 5 s1),
      option_map (fun r => match r with Go d => d_datyp d | Err _ => -1 end) (fstprm (s_w s1) 1), fstluk no_orc zeros (s_w s1) 1 (repeat 7 n))
  | None => None
  end.
