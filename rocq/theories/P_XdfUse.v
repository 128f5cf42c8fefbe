(** Property C32: copying the valid records of a file (c_xdfuse). *)
From Coq Require Import ZArith List Lia Bool Sorted.
From Verif Require Import Bits Handles WaFile Xdf XdfLib XdfSearch XdfOpen XdfHist XdfInv XdfPut2 XdfPut4 XdfAbs XdfCreate XdfSys XdfSys2 XdfSpec XdfThm XdfThm3 XdfDemo XdfSta XdfUse XdfUseSpec XdfUseThm XdfUseThm2.
Import ListNotations.
Open Scope Z_scope.

(** [fn]: what fnom associated to the units [src] and [dst]. The source is
    closed, or open for reading; the destination is open for writing, or closed,
    or does not exist. [L]: the positions of the valid records of the source, in
    the order of the file. The sizes stay within 2^31 words, with room for a
    directory page (8200 words at most) per record.
    After a copy that reports no error the destination is open and its
    directory is the one it had followed by one entry for each record of [L], in
    that order, each designating the words of the record copied but for its
    address; the records of all other files are as before. The copies have
    room: the directory of the destination has fewer than 1024 pages. *)
Theorem c32_copy : forall s junk fn src dst us ud d n L fuel c s', reach s -> fn src = Some us -> fn dst = Some ud -> u_path us <> u_path ud ->
  kp_ok (u_kp us) -> kp_ok (u_kp ud) -> is_source s src (u_path us) d -> is_dest s dst (u_path ud) (u_ro ud) (u_std ud) n ->
  (u_std us = true -> nth 3 d 0 = STDR \/ nth 3 d 0 = STDS) -> (forall h, sta_hdr s src (u_path us) = Some (Go h) -> keys_ok (pri_keys h) (aux_keys h)) ->
  whole d -> in_file_order (sabs s (u_path us)) L -> n + dsize d + (Z.of_nat (length L) + 2) * 8200 + 417 < 2 ^ 31 ->
  xdfuse fuel junk fn 1 src dst s = Some (c, s') -> 0 <= c ->
  reach s' /\ (forall q k r, q <> u_path ud -> sabs s' q k r = sabs s q k r) /\
  exists j g, s_fs s' (u_path ud) = Opened j /\ w_file (s_w s') j = Some g /\ f_iun g = dst /\
    ((length (f_pages g) < MAX_DIR_PAGES)%nat -> adds (sabs s (u_path us)) (sabs s (u_path ud)) (sabs s' (u_path ud)) g L).
Proof.
  intros s junk fn src dst us ud d n L fuel c s' R FS FD PP KS KD SR DR SG KO WH OL BG X C.
  destruct (use_spec s junk fn src dst us ud d n L fuel c s' (reach_wf _ R) FS FD PP KS KD SR DR SG KO WH OL BG X C) as (_ & (l & H) & _ & O & E).
  split; [eapply reach_hist; eassumption|]. auto.
Qed.
Print Assumptions c32_copy.

(** The copies are read back from the destination. *)
Theorem c32_read : forall s junk fn src dst us ud d n L fuel c s', reach s -> fn src = Some us -> fn dst = Some ud -> u_path us <> u_path ud ->
  kp_ok (u_kp us) -> kp_ok (u_kp ud) -> is_source s src (u_path us) d -> is_dest s dst (u_path ud) (u_ro ud) (u_std ud) n ->
  (u_std us = true -> nth 3 d 0 = STDR \/ nth 3 d 0 = STDS) -> (forall h, sta_hdr s src (u_path us) = Some (Go h) -> keys_ok (pri_keys h) (aux_keys h)) ->
  whole d -> in_file_order (sabs s (u_path us)) L -> n + dsize d + (Z.of_nat (length L) + 2) * 8200 + 417 < 2 ^ 31 ->
  xdfuse fuel junk fn 1 src dst s = Some (c, s') -> 0 <= c ->
  exists j g, w_file (s_w s') j = Some g /\ f_iun g = dst /\ ((length (f_pages g) < MAX_DIR_PAGES)%nat ->
    exists old new, positions (page_sizes g) = old ++ new /\
      Forall2 (fun x y => exists e ws ws', sabs s (u_path us) (fst x) (snd x) = Some (Some (e, ws)) /\ same_record ws ws' /\
                          reads (s_w s') (rec_handle j (fst y) (snd y)) ws') L new).
Proof.
  intros s junk fn src dst us ud d n L fuel c s' R FS FD PP KS KD SR DR SG KO WH OL BG X C.
  destruct (use_spec s junk fn src dst us ud d n L fuel c s' (reach_wf _ R) FS FD PP KS KD SR DR SG KO WH OL BG X C) as (_ & _ & W & O & j & g & P & G & U & A).
  exists j, g. split; [exact G|]. split; [exact U|]. intros LP. destruct (A LP) as (old & new & PS & _ & _ & F). exists old, new. split; [exact PS|].
  clear - F W P. induction F as [|x y l m HD TL IH]; constructor; [|exact IH]. destruct HD as (e & ws & e' & ws' & A & B & S & _).
  exists e, ws, ws'. split; [exact A|]. split; [exact S|]. eapply reads_live; eassumption.
Qed.
Print Assumptions c32_read.

(** The destination being open with the key functions of standard files, and
    the source open: the copy ends, without error when the two files have the
    same keys; else it is refused and nothing changes. *)
Theorem c32_ends : forall s junk fn src dst us ud d i fs j g L fuel, reach s -> fn src = Some us -> fn dst = Some ud ->
  s_fs s (u_path us) = Opened i -> w_file (s_w s) i = Some fs -> f_iun fs = src -> ~ writable fs -> f_disk fs = d ->
  s_fs s (u_path ud) = Opened j -> w_file (s_w s) j = Some g -> f_iun g = dst -> writable g -> f_kp g = std_kp -> u_path us <> u_path ud ->
  whole d -> in_file_order (sabs s (u_path us)) L -> dsize (f_disk g) + dsize d + (Z.of_nat (length L) + 2) * 8200 + 417 < 2 ^ 31 -> dsize d <= 2 * Z.of_nat fuel ->
  (same_keys (f_hdr g) (f_hdr fs) -> exists s', xdfuse fuel junk fn 1 src dst s = Some (0, s')) /\
  (~ same_keys (f_hdr g) (f_hdr fs) -> xdfuse fuel junk fn 1 src dst s = Some (ERR_NOT_COMP, s)).
Proof. intros s junk fn src dst us ud d i fs j g L fuel R. apply use_open. apply reach_wf. exact R. Qed.
Print Assumptions c32_ends.

(** Whatever error is reported, no record of any file has changed. *)
Theorem c32_error : forall s junk fn src dst us ud d n L fuel c s', reach s -> fn src = Some us -> fn dst = Some ud -> u_path us <> u_path ud ->
  kp_ok (u_kp us) -> kp_ok (u_kp ud) -> is_source s src (u_path us) d -> is_dest s dst (u_path ud) (u_ro ud) (u_std ud) n ->
  (u_std us = true -> nth 3 d 0 = STDR \/ nth 3 d 0 = STDS) -> (forall h, sta_hdr s src (u_path us) = Some (Go h) -> keys_ok (pri_keys h) (aux_keys h)) ->
  whole d -> in_file_order (sabs s (u_path us)) L -> n + dsize d + (Z.of_nat (length L) + 2) * 8200 + 417 < 2 ^ 31 ->
  xdfuse fuel junk fn 1 src dst s = Some (c, s') -> c < 0 -> forall q k r, sabs s' q k r = sabs s q k r.
Proof. intros s junk fn src dst us ud d n L fuel c s' R. apply use_error. apply reach_wf. exact R. Qed.
Print Assumptions c32_error.

(** The order of the valid records exists, and is the only one. *)
Theorem c32_order : forall s src p d, reach s -> is_source s src p d -> whole d ->
  exists L, in_file_order (sabs s p) L /\ forall M, in_file_order (sabs s p) M -> M = L.
Proof. intros s src p d R. apply source_order. apply reach_wf. exact R. Qed.
Print Assumptions c32_order.

(** ** A case: three records of which one is deleted, copied to a file with a
    record, and to a new file. *)
Definition h_of (k r : nat) : Z := rec_handle 1 k r.
Definition demo_u : list op :=
  [demo_create 0 10; demo_put 10 1 1 11 12; demo_put 10 2 2 13 14; demo_put 10 3 3 15 16; OpDel (h_of 0 1); OpClose zeros 10;
   demo_create 1 20; demo_put 20 9 9 19 20].
Definition fn_u (iun : Z) : option funit :=
  if iun =? 10 then Some (mkfunit 0 false false std_kp) else if iun =? 20 then Some (mkfunit 1 false false std_kp) else if iun =? 30 then Some (mkfunit 2 false false std_kp) else None.
Definition words_in (s : sys) (p : nat) : list (option (option (list Z))) := map (fun r : nat => option_map (option_map snd) (sabs s p 0%nat r)) [0; 1; 2; 3]%nat.
Definition copied (src dst : Z) (l : list op) : option (Z * list (list (option (option (list Z))))) :=
  match xdfuse 100 zeros fn_u 1 src dst (final l) with
  | Some (c, s) => Some (c, map (words_in s) [0; 1; 2]%nat)
  | None => None end.
Lemma demo_u_reach : reach (final demo_u).
Proof. apply final_reach. unfold demo_u, demo_create, demo_put. repeat constructor. Qed.
Example c32_ex_codes : codes demo_u = [0; 0; 0; 0; 0; 0; 0; 0].
Proof. vm_compute. reflexivity. Qed.
Example c32_ex_before : map (words_in (final demo_u)) [0; 1; 2]%nat =
  [[Some (Some [16777219; 527; 1; 1; 11; 12]); Some None; Some (Some [16777219; 533; 3; 3; 15; 16]); None];
   [Some (Some [16777219; 527; 9; 9; 19; 20]); None; None; None]; [None; None; None; None]].
Proof. vm_compute. reflexivity. Qed.
Example c32_ex_copy : copied 10 20 demo_u = Some (0,
  [[Some (Some [16777219; 527; 1; 1; 11; 12]); Some None; Some (Some [16777219; 533; 3; 3; 15; 16]); None];
   [Some (Some [16777219; 527; 9; 9; 19; 20]); Some (Some [16777219; 530; 1; 1; 11; 12]); Some (Some [16777219; 533; 3; 3; 15; 16]); None];
   [None; None; None; None]]).
Proof. vm_compute. reflexivity. Qed.
Example c32_ex_new : copied 10 30 demo_u = Some (0,
  [[Some (Some [16777219; 527; 1; 1; 11; 12]); Some None; Some (Some [16777219; 533; 3; 3; 15; 16]); None];
   [Some (Some [16777219; 527; 9; 9; 19; 20]); None; None; None];
   [Some (Some [16777219; 527; 1; 1; 11; 12]); Some (Some [16777219; 530; 3; 3; 15; 16]); None; None]]).
Proof. vm_compute. reflexivity. Qed.
Definition wholeb (d : disk) : bool := forallb (fun x => (0 <=? x) && (x <? 2 ^ 32)) d && (dsize d =? 2 * nth 4 d 0).
Lemma wholeb_ok d : wholeb d = true -> whole d.
Proof.
  unfold wholeb, whole. intros H. apply andb_prop in H. destruct H as [A B]. apply Z.eqb_eq in B. split; [|exact B]. rewrite forallb_forall in A. apply Forall_forall.
  intros x X. specialize (A x X). apply andb_prop in A. destruct A as [A1 A2]. apply Z.leb_le in A1. apply Z.ltb_lt in A2. lia.
Qed.
Definition disk_u : disk := match s_fs (final demo_u) 0 with Shut d => d | _ => [] end.
Example c32_ex_source : is_source (final demo_u) 10 0 disk_u /\ whole disk_u /\ is_dest (final demo_u) 20 1 false false 1058 /\ is_dest (final demo_u) 30 2 false false 0.
Proof.
  split; [|split; [|split]].
  - left. unfold disk_u. destruct (s_fs (final demo_u) 0) eqn:E; try (vm_compute in E; discriminate). split; [reflexivity|vm_compute; reflexivity].
  - apply wholeb_ok. vm_compute. reflexivity.
  - left. destruct (s_fs (final demo_u) 1) as [| |i] eqn:E; try (vm_compute in E; discriminate). assert (i = 1%nat) as -> by (vm_compute in E; congruence).
    assert (O : option_map (fun f => (f_iun f, hget (f_hdr f) H_RWFLG, f_ro f, dsize (f_disk f))) (w_file (s_w (final demo_u)) 1) = Some (20, CREATE, false, 1058)) by (vm_compute; reflexivity).
    destruct (w_file (s_w (final demo_u)) 1) as [f|] eqn:F; [|discriminate]. exists 1%nat, f. split; [reflexivity|]. split; [exact F|].
    cbn [option_map] in O. injection O as O1 O2 O3 O4. unfold writable. rewrite O1, O2, O3, O4. repeat split; discriminate.
  - right. right. repeat split; vm_compute; reflexivity.
Qed.

(** ** Where the copy differs from the valid records *)
(** Records deleted in a file that is still open for writing are copied: the
    deletion is written to the file when it is closed. *)
Definition demo_v : list op := [demo_create 0 10; demo_put 10 1 1 11 12; demo_put 10 2 2 13 14; OpDel (h_of 0 0)].
Theorem c32_open_source_refuted : reach (final demo_v) /\ codes demo_v = [0; 0; 0; 0] /\ copied 10 20 demo_v = Some (0,
  [[Some None; Some (Some [16777219; 530; 2; 2; 13; 14]); None; None];
   [Some (Some [16777219; 527; 1; 1; 11; 12]); Some (Some [16777219; 530; 2; 2; 13; 14]); None; None]; [None; None; None; None]]).
Proof. split; [apply final_reach; unfold demo_v, demo_create, demo_put; repeat constructor|]. split; vm_compute; reflexivity. Qed.
Print Assumptions c32_open_source_refuted.

(** What an interrupted program wrote after the last registered record is
    copied too: file 0 has one record, its copy has two. *)
Definition demo_x : list op := [demo_create 0 10; demo_put 10 1 1 11 12; OpClose zeros 10; OpOpen zeros 0 10 false false std_kp RWMODE; demo_put 10 2 2 13 14].
Definition cut_disk : disk := match w_file (s_w (final demo_x)) 1 with Some f => f_disk f | None => [] end.
Definition cut_sys : sys := mksys (mkworld false (fun _ => None)) (fun p => match p with O => Shut cut_disk | _ => Absent end).
Theorem c32_leftovers_refuted : codes demo_x = [0; 0; 0; 1; 0] /\
  words_in cut_sys 0 = [Some (Some [16777219; 527; 1; 1; 11; 12]); None; None; None] /\
  match xdfuse 100 zeros fn_u 1 10 20 cut_sys with Some (c, s) => c = 0 /\
    words_in s 1 = [Some (Some [16777219; 527; 1; 1; 11; 12]); Some (Some [16777219; 530; 2; 2; 13; 14]); None; None] | None => False end.
Proof. vm_compute. repeat split. Qed.
Print Assumptions c32_leftovers_refuted.
