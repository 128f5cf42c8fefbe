(** Property C31: linked files (c_xdflnk, c_xdfunl). *)
From Coq Require Import ZArith List Lia Bool.
From Verif Require Import Bits Handles WaFile Xdf XdfLib XdfSearch XdfOpen XdfHist XdfInv XdfDel XdfPut XdfPut2 XdfPut4 XdfAbs XdfCreate XdfSys XdfSys2 XdfSpec XdfThm XdfEnum XdfThm3 XdfDemo XdfLink XdfLink2 XdfLink3.
Import ListNotations.
Open Scope Z_scope.

(** [files]: open files, each with its slot, in the order of the list given to
    c_xdflnk; [searched w w']: from [w], any number of searches with any
    arguments lead to [w']. The model does not follow links between files whose
    entries have different lengths. [n] bounds the pages visited by one search
    of the model; handles have 12 bits for the page. *)

(** A search on the first file (handle 0 with the keys, then -1) gives the
    matching records of the concatenated directories, once each, in order. *)
Theorem c31_search : forall s i f rest n junk filt keys nprim msk w1 w, reach s ->
  let files := (i, f) :: rest in
  (forall j g, In (j, g) files -> w_file (s_w s) j = Some g /\ f_plen g = f_plen f) -> NoDup (map fst files) -> f_kp f = std_kp ->
  let nk := (2 * (f_plen f - 1))%nat in
  nprim <> 0 -> (nk <= length keys)%nat -> (nk <= length msk)%nat -> all_words msk ->
  let pages := concat (map (fun x => f_pages (snd x)) files) in
  (length pages <= 4096)%nat -> (length pages <= n)%nat ->
  xdflnk (s_w s) (map (fun x => f_iun (snd x)) files) = (0, w1) -> searched w1 w ->
  let found := map (fun x => rec_handle i (fst x) (snd x))
    (filter (fun x => key_match nk keys msk (in_pages pages (fst x) (snd x)) && filt (rec_handle i (fst x) (snd x)))
            (positions (map (fun p => Z.to_nat (p_nent p)) pages))) in
  let call := fun w h => if h =? 0 then xdfloc2 n junk filt w (f_iun f) 0 keys nprim (Some msk) else xdfloc2 n junk filt w (f_iun f) (-1) [] 0 None in
  exists w', enumerates call w 0 found w' /\ searched w w'.
Proof.
  intros s i f rest n junk filt keys nprim msk w1 w R files OP ND KP nk NP LP LM WM pages L4 LN X SE found call.
  destruct (search_linked s i f rest n junk filt keys nprim msk w1 w (reach_wf _ R)) as (w' & E); auto.
  - split; [intros j g IN; apply (OP j g IN)|exact ND].
  - intros j g IN. apply (OP j g). right. exact IN.
  - exists w'. split; [exact E|]. eapply enum_searched; [|exact E]. intros w0 h. cbv beta. destruct (h =? 0).
    + exists n, junk, filt, (f_iun f), 0, keys, nprim, (Some msk). reflexivity.
    + exists n, junk, filt, (f_iun f), (-1), [], 0, None. reflexivity.
Qed.
Print Assumptions c31_search.

(** Linking succeeds. *)
Theorem c31_links : forall s i f rest, reach s -> let files := (i, f) :: rest in
  (forall j g, In (j, g) files -> w_file (s_w s) j = Some g) -> NoDup (map fst files) ->
  exists w1, xdflnk (s_w s) (map (fun x => f_iun (snd x)) files) = (0, w1).
Proof. intros s i f rest R files OP ND. destruct (link_all s i f rest (reach_wf _ R) (conj OP ND)) as (w1 & X & _). exists w1. exact X. Qed.
Print Assumptions c31_links.

(** Record [r] of page [k] of any of the files is read through the first one,
    under the page number counted from the first page of the first file,
    exactly as it was read through its own file; so are its directory data. *)
Theorem c31_access : forall s i f rest w1 w, reach s -> let files := (i, f) :: rest in
  (forall j g, In (j, g) files -> w_file (s_w s) j = Some g) -> NoDup (map fst files) ->
  xdflnk (s_w s) (map (fun x => f_iun (snd x)) files) = (0, w1) -> searched w1 w ->
  forall before j g next k r, files = before ++ (j, g) :: next -> (k < length (f_pages g))%nat -> (r < 512)%nat ->
  let K := (length (concat (map (fun x => f_pages (snd x)) before)) + k)%nat in (K < 4096)%nat ->
  (forall buf, xdfget w (rec_handle i K r) buf = xdfget (s_w s) (rec_handle j k r) buf) /\
  (f_kp f = std_kp -> f_kp g = std_kp -> f_plen g = f_plen f -> xdfprm w (rec_handle i K r) = xdfprm (s_w s) (rec_handle j k r)).
Proof. intros s i f rest w1 w R files OP ND X SE. exact (access_linked s i f rest w1 w (reach_wf _ R) (conj OP ND) X SE). Qed.
Print Assumptions c31_access.

(** In particular each handle found gives access to the record that matched. *)
Theorem c31_found : forall s i f rest keys msk filt w1 w, reach s -> let files := (i, f) :: rest in
  (forall j g, In (j, g) files -> w_file (s_w s) j = Some g) -> NoDup (map fst files) ->
  let nk := (2 * (f_plen f - 1))%nat in let pages := concat (map (fun x => f_pages (snd x)) files) in (length pages <= 4096)%nat ->
  xdflnk (s_w s) (map (fun x => f_iun (snd x)) files) = (0, w1) -> searched w1 w ->
  forall h, In h (map (fun x => rec_handle i (fst x) (snd x))
    (filter (fun x => key_match nk keys msk (in_pages pages (fst x) (snd x)) && filt (rec_handle i (fst x) (snd x)))
            (positions (map (fun p => Z.to_nat (p_nent p)) pages)))) ->
  exists j g k r, In (j, g) files /\ key_match nk keys msk (entry_words g k r) = true /\
    forall ws, reads (s_w s) (rec_handle j k r) ws -> reads w h ws.
Proof.
  intros s i f rest keys msk filt w1 w R files OP ND nk pages L4 X SE h IN. apply in_map_iff in IN. destruct IN as ((K, r) & <- & IN). cbn [fst snd].
  apply filter_In in IN. cbn [fst snd] in IN. destruct IN as [IN KM]. apply andb_prop in KM. destruct KM as [KM _].
  unfold positions in IN. apply in_flat_map in IN. destruct IN as ((K', n) & IN & IN2). cbn [fst snd] in IN2. apply in_map_iff in IN2. destruct IN2 as (r' & E & RS). injection E as -> ->.
  apply in_seq in RS. apply (In_nth_error) in IN. destruct IN as (q & IN).
  assert (K = q /\ exists p, nth_error pages q = Some p /\ Z.to_nat (p_nent p) = n) as (-> & p & P & PN).
  { assert (Q : (q < length pages)%nat). { assert (HQ : (q < length (combine (seq 0 (length (map (fun p => Z.to_nat (p_nent p)) pages))) (map (fun p => Z.to_nat (p_nent p)) pages)))%nat) by (apply nth_error_Some; congruence). rewrite combine_length, !map_length, seq_length in HQ. lia. }
    destruct (nth_error pages q) as [p|] eqn:P; [|apply nth_error_None in P; lia].
    rewrite (nth_combine _ _ q q (Z.to_nat (p_nent p))) in IN; [|rewrite (nth_error_nth' _ 0%nat) by (rewrite seq_length, map_length; exact Q); rewrite seq_nth by (rewrite map_length; exact Q); reflexivity|rewrite nth_error_map, P; reflexivity].
    split; [congruence|]. exists p. split; [reflexivity|congruence]. }
  destruct (concat_split files q p P) as (a & j & g & b & k & SP & -> & GP).
  assert (ING : In (j, g) files) by (rewrite SP; apply in_or_app; right; left; reflexivity).
  exists j, g, k, r. split; [exact ING|]. split; [unfold in_pages in KM; rewrite P in KM; unfold entry_words; rewrite GP; exact KM|].
  pose proof (reach_wf _ R) as W. destruct (fo_inv _ (wf_fok _ W _ _ (OP j g ING))) as [G _]. pose proof (nent_bound _ _ _ G GP) as NB. unfold EPP in NB.
  assert (KL : (k < length (f_pages g))%nat) by (apply nth_error_Some; congruence).
  assert (QL : (length (concat (map (fun x => f_pages (snd x)) a)) + k < length pages)%nat) by (apply nth_error_Some; congruence).
  destruct (access_linked s i f rest w1 w W (conj OP ND) X SE a j g b k r SP KL ltac:(lia) ltac:(lia)) as [GET _].
  intros ws [L RD]. split; [exact L|]. intros buf TK. rewrite GET. apply RD. exact TK.
Qed.
Print Assumptions c31_found.

(** After c_xdfunl, with any searches before, all files are as before linking
    but for search targets and cursors; with none, exactly as before. *)
Theorem c31_unlink : forall s i f rest w1 w, reach s -> let files := (i, f) :: rest in
  (forall j g, In (j, g) files -> w_file (s_w s) j = Some g) -> NoDup (map fst files) ->
  xdflnk (s_w s) (map (fun x => f_iun (snd x)) files) = (0, w1) -> searched w1 w ->
  exists w2, xdfunl w (map (fun x => f_iun (snd x)) files) = (0, w2) /\
    (forall j, match w_file (s_w s) j, w_file w2 j with
               | Some g, Some g2 => exists target mask valid cursor, g2 = f_setcur (f_settgt g target mask valid) cursor
               | None, None => True
               | _, _ => False
               end) /\
    (w = w1 -> forall j, w_file w2 j = w_file (s_w s) j).
Proof.
  intros s i f rest w1 w R files OP ND X SE. destruct (unlink_all s i f rest w1 w (reach_wf _ R) (conj OP ND) X SE) as (w2 & U & [_ A] & B).
  exists w2. split; [exact U|]. split.
  - intros j. specialize (A j). destruct (w_file (s_w s) j), (w_file w2 j); try exact A. destruct A as (t & m & v & c & E & _). exists t, m, v, c. exact E.
  - intros ->. apply B. reflexivity.
Qed.
Print Assumptions c31_unlink.

(** ** Non-vacuity: three files of 2, 1 and 2 records *)
Definition demo_l : list op :=
  [demo_create 0 10; demo_put 10 1 1 11 12; demo_put 10 2 2 13 14; demo_create 1 20; demo_put 20 3 3 15 16;
   demo_create 2 30; demo_put 30 4 4 17 18; demo_put 30 5 5 19 20; demo_create 3 40; demo_put 40 6 6 21 22; demo_put 40 7 7 23 24].
Definition demo_w (us : list Z) : world := snd (xdflnk (s_w (final demo_l)) us).
Definition all (w : world) (h : Z) : option (Z * world) := xdfloc2 5 zeros (fun _ => true) w 10 h [0; 0] 2 (Some [0; 0]).
Definition next (w : world) : option (Z * world) := xdfloc2 5 zeros (fun _ => true) w 10 (-1) [] 0 None.
Definition then_ (r : option (Z * world)) (k : world -> option (Z * world)) : option (Z * world) := match r with Some (_, w) => k w | None => None end.
Definition code (r : option (Z * world)) : Z := match r with Some (c, _) => c | None => 0 end.

Example demo_l_reach : reach (final demo_l) /\ codes demo_l = repeat 0 11.
Proof. split; [|vm_compute; reflexivity]. apply final_reach. unfold demo_l, demo_create, demo_put. repeat constructor. Qed.

Example demo_l_files : exists f1 f2 f3, let files := [(1%nat, f1); (2%nat, f2); (3%nat, f3)] in
  (forall j g, In (j, g) files -> w_file (s_w (final demo_l)) j = Some g /\ f_plen g = f_plen f1) /\ f_kp f1 = std_kp /\ f_plen f1 = 2%nat /\
  map (fun x => f_iun (snd x)) files = [10; 20; 30] /\ length (concat (map (fun x => f_pages (snd x)) files)) = 3%nat.
Proof.
  assert (A : forall j, match w_file (s_w (final demo_l)) j with Some g => f_plen g = 2%nat | None => False end ->
    exists g, w_file (s_w (final demo_l)) j = Some g /\ f_plen g = 2%nat /\ f_kp g = std_kp).
  { intros j H. destruct (w_file (s_w (final demo_l)) j) as [g|] eqn:F; [|contradiction]. exists g. split; [reflexivity|]. split; [exact H|].
    refine (final_all_std demo_l _ _ j g F); unfold demo_l, demo_create, demo_put; repeat constructor. }
  destruct (A 1%nat) as (f1 & F1 & P1 & K1); [vm_compute; reflexivity|].
  destruct (A 2%nat) as (f2 & F2 & P2 & K2); [vm_compute; reflexivity|].
  destruct (A 3%nat) as (f3 & F3 & P3 & K3); [vm_compute; reflexivity|].
  assert (U : forall j g, w_file (s_w (final demo_l)) j = Some g -> f_iun g = match w_file (s_w (final demo_l)) j with Some g => f_iun g | None => 0 end /\
                          length (f_pages g) = match w_file (s_w (final demo_l)) j with Some g => length (f_pages g) | None => 0%nat end) by (intros j g ->; auto).
  exists f1, f2, f3. split.
  - intros j g [E|[E|[E|[]]]]; injection E as <- <-; split; congruence.
  - split; [exact K1|]. split; [exact P1|]. cbn [map snd concat]. rewrite !app_length.
    rewrite (proj1 (U _ _ F1)), (proj1 (U _ _ F2)), (proj1 (U _ _ F3)), (proj2 (U _ _ F1)), (proj2 (U _ _ F2)), (proj2 (U _ _ F3)). split; vm_compute; reflexivity.
Qed.

Example demo_l_search : let w := demo_w [10; 20; 30] in
  code (all w 0) = rec_handle 1 0 0 /\ code (then_ (all w 0) next) = rec_handle 1 0 1 /\ code (then_ (then_ (all w 0) next) next) = rec_handle 1 1 0 /\
  code (then_ (then_ (then_ (all w 0) next) next) next) = rec_handle 1 2 0 /\
  code (then_ (then_ (then_ (then_ (all w 0) next) next) next) next) = rec_handle 1 2 1 /\
  code (then_ (then_ (then_ (then_ (then_ (all w 0) next) next) next) next) next) = ERR_NOT_FOUND.
Proof. vm_compute. repeat split. Qed.

(** ** Where linked files are not searched as their concatenation *)

(** Continuing by the handle found, instead of -1, stops on the pages of the
    other files: after record 0 of file 30 the search does not find record 1. *)
Theorem c31_by_handle_refuted : reach (final demo_l) /\
  let w := demo_w [10; 30] in let h2 := rec_handle 1 1 0 in
  code (then_ (then_ (all w 0) next) next) = h2 /\ code (then_ (then_ (then_ (all w 0) next) next) next) = rec_handle 1 1 1 /\
  code (then_ (then_ (then_ (all w 0) next) next) (fun w => all w h2)) = ERR_NO_POS.
Proof. split; [apply demo_l_reach|]. vm_compute. repeat split. Qed.
Print Assumptions c31_by_handle_refuted.

(** A search started from a handle three or more pages past the first file
    goes on from another page: from record 0 of the fourth file it gives the
    handle of record 1 of the third. *)
Theorem c31_from_handle_refuted : reach (final demo_l) /\
  let w := demo_w [10; 20; 30; 40] in code (all w (rec_handle 1 3 0)) = rec_handle 1 2 1.
Proof. split; [apply demo_l_reach|]. vm_compute. repeat split. Qed.
Print Assumptions c31_from_handle_refuted.

(** Deleting through a linked handle reports success, but the file that holds
    the record is not marked as modified: unlinked, closed and opened again, it
    still has the record. *)
Definition reopened : list op := [demo_create 0 10; demo_put 10 1 1 11 12; demo_create 2 30; demo_put 30 4 4 17 18; OpClose zeros 30; OpOpen zeros 2 30 false false std_kp RWMODE].
Definition del_reopened : option (Z * Z * Z) :=
  let s := final reopened in
  match xdfdel (snd (xdflnk (s_w s) [10; 30])) (rec_handle 1 1 0) with
  | Some (c, w) => match w_file (snd (xdfunl w [10; 30])) 2 with
                   | Some f => match xdfcls zeros false f with
                               | Some f' => match xdfopn zeros 30 false false std_kp (f_disk f') RWMODE with
                                            | Some (Go (n, g)) => Some (c, n, n_live g)
                                            | _ => None end
                               | None => None end
                   | None => None end
  | None => None end.
Theorem c31_delete_refuted : reach (final reopened) /\ codes reopened = [0; 0; 0; 0; 0; 1] /\ del_reopened = Some (0, 1, 1).
Proof. split; [apply final_reach; unfold reopened, demo_create, demo_put; repeat constructor|]. split; vm_compute; reflexivity. Qed.
Print Assumptions c31_delete_refuted.
