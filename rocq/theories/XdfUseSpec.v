(** What copying a file means. *)
From Coq Require Import ZArith List Lia Bool Sorted.
From Verif Require Import Bits WaFile Xdf XdfOpen XdfHist XdfPut4 XdfSys XdfSpec.
Import ListNotations.
Open Scope Z_scope.

(** The records of a file, by position in its directory: [None]: no entry,
    [Some None]: deleted, [Some (Some (e, ws))]: directory entry [e], words
    [ws]. ([sabs s p]: those of file [p], as found by opening it.) *)
Definition content := nat -> nat -> option (option (list Z * list Z)).

(** [L]: the positions of the records that are not deleted, in the order in
    which they follow each other in the file. *)
Definition in_file_order (A : content) (L : list (nat * nat)) : Prop :=
  (forall k r, In (k, r) L <-> exists x, A k r = Some (Some x)) /\
  StronglySorted (fun x y => forall e ws e' ws', A (fst x) (snd x) = Some (Some (e, ws)) -> A (fst y) (snd y) = Some (Some (e', ws')) ->
                             e_addr e < e_addr e') L.

(** Same words, except the second one: the address of the record. *)
Definition same_record (ws ws' : list Z) : Prop := exists a, ws' = hd 0 ws :: a :: skipn 2 ws.

(** Records [L] of a file with content [A] are added, in that order, to the end of the
    directory of a file whose content was [B]; it is now [g] with content [B']. *)
Definition adds (A B B' : content) (g : fte) (L : list (nat * nat)) : Prop :=
  exists old new, positions (page_sizes g) = old ++ new /\
    (forall k r, In (k, r) old <-> B k r <> None) /\
    (forall k r, In (k, r) old -> B' k r = B k r) /\
    Forall2 (fun x y => exists e ws e' ws', A (fst x) (snd x) = Some (Some (e, ws)) /\ B' (fst y) (snd y) = Some (Some (e', ws')) /\
                        same_record ws ws' /\
                        (f_kp g = std_kp -> (2 * f_plen g <= length ws)%nat -> e' = firstn (2 * f_plen g) ws')) L new.

(** File [d] holds 32-bit words and is as long as its header says: no remains
    of an interrupted program after its last record. *)
Definition whole (d : disk) : Prop := Forall (fun x => 0 <= x < 2 ^ 32) d /\ dsize d = 2 * nth 4 d 0.

(** The source, unit [iun] for file [p]: closed, or open and not for writing. *)
Definition is_source (s : sys) (iun : Z) (p : nat) (d : disk) : Prop :=
  (s_fs s p = Shut d /\ file_index (s_w s) iun = None) \/
  (exists i f, s_fs s p = Opened i /\ w_file (s_w s) i = Some f /\ f_iun f = iun /\ ~ writable f /\ f_disk f = d).

(** The destination: open for writing, or closed and not write-protected, or
    absent. [n]: its length. *)
Definition is_dest (s : sys) (iun : Z) (p : nat) (ro std : bool) (n : Z) : Prop :=
  (exists i f, s_fs s p = Opened i /\ w_file (s_w s) i = Some f /\ f_iun f = iun /\ writable f /\ n = dsize (f_disk f)) \/
  (exists d, s_fs s p = Shut d /\ file_index (s_w s) iun = None /\ ro = false /\ n = dsize d /\ (std = true -> nth 3 d 0 = STDR \/ nth 3 d 0 = STDS)) \/
  (s_fs s p = Absent /\ file_index (s_w s) iun = None /\ n = 0).

(** Two file headers describe the same keys: words 10 and 11 (numbers and
    lengths of the primary and auxiliary keys), then two words for each key. *)
Definition n_keys (h : list Z) : Z := nth 10 h 0 / 2 ^ 16 + nth 11 h 0 / 2 ^ 16.
Definition same_keys (h h' : list Z) : Prop :=
  nth 10 h 0 = nth 10 h' 0 /\ nth 11 h 0 = nth 11 h' 0 /\
  forall k, Z.of_nat k < 2 * n_keys h -> nth (16 + k) h 0 = nth (16 + k) h' 0.
