(** Property C19: handles of records. A random-file handle is built from a
    page number, a record number in the page and a file index; the library
    limits are 1024 files, 256 entries per page, 1024 pages per file (4096 are
    representable). [seqop] tells whether a sequential file was ever opened. *)
From Coq Require Import ZArith Bool Lia.
From Verif Require Import Handles HandlesFacts.
Open Scope Z_scope.

(** A handle is a non negative int and decodes to what it was built from, as
    long as no sequential file was opened or the file index is below 128. *)
Theorem c19_handle_decodes_partial : forall seqop page rec idx,
  0 <= page < 4096 -> 0 <= rec < 512 -> 0 <= idx < 1024 -> (seqop = true -> idx < 128) ->
  0 <= make_rnd_handle page rec idx < 2 ^ 31 /\
  index_from_handle seqop (make_rnd_handle page rec idx) = idx /\
  pageno_from_handle (make_rnd_handle page rec idx) = page /\
  record_from_handle (make_rnd_handle page rec idx) = rec.
Proof.
  intros seqop page rec idx Hp Hr Hi Hs. split; [apply rnd_range; assumption|].
  split; [|split; [apply rnd_page; assumption|apply rnd_record; assumption]].
  destruct seqop; [rewrite rnd_index_seq by assumption; apply Z.mod_small; lia|apply rnd_index_any; assumption].
Qed.
Print Assumptions c19_handle_decodes_partial.

(** Two different records never share a handle. *)
Theorem c19_handle_unique : forall page rec idx page' rec' idx',
  0 <= page < 4096 -> 0 <= rec < 512 -> 0 <= idx < 1024 ->
  0 <= page' < 4096 -> 0 <= rec' < 512 -> 0 <= idx' < 1024 ->
  make_rnd_handle page rec idx = make_rnd_handle page' rec' idx' ->
  page = page' /\ rec = rec' /\ idx = idx'.
Proof.
  intros page rec idx page' rec' idx' A B C A' B' C' E.
  pose proof (rnd_page page rec idx A B C) as P. pose proof (rnd_record page rec idx A B C) as R.
  pose proof (rnd_index_any page rec idx A B C) as I.
  rewrite E in P, R, I.
  rewrite rnd_page in P by assumption. rewrite rnd_record in R by assumption.
  rewrite rnd_index_any in I by assumption. auto.
Qed.
Print Assumptions c19_handle_unique.

(** No record of an open file has handle 0, which c_xdfput and c_xdfloc2 read
    as "no record" (the first slot of the file table is never given out). *)
Theorem c19_handle_nonzero : forall page rec idx,
  0 <= page < 4096 -> 0 <= rec < 512 -> 1 <= idx < 1024 -> 0 < make_rnd_handle page rec idx.
Proof. intros. rewrite make_rnd_sum by lia. lia. Qed.
Print Assumptions c19_handle_nonzero.

Example c19_instance :
  make_rnd_handle 1023 255 1023 = 0x1FFBFFFF /\
  index_from_handle false 0x1FFBFFFF = 1023 /\ pageno_from_handle 0x1FFBFFFF = 1023 /\ record_from_handle 0x1FFBFFFF = 255.
Proof. vm_compute. repeat split. Qed.

(** Sequential files: the handle built for a record gives back its address,
    for every record placed by c_xdfput ([n] is the first free word after the
    previous record and its postfix; word offsets below 2^29) ... *)
Theorem c19_sequential_handle : forall n idx,
  0 <= n -> next_cluster n < 2 ^ 29 -> 0 <= idx < 128 ->
  n <= next_cluster n < n + 128 /\
  address_from_handle false (make_seq_handle false (next_cluster n + 1) idx) = next_cluster n + 1 /\
  index_from_handle true (make_seq_handle false (next_cluster n + 1) idx) = idx /\
  0 <= make_seq_handle false (next_cluster n + 1) idx < 2 ^ 31.
Proof.
  intros n idx Hn Hb Hi. destruct (next_cluster_aligned n Hn Hb) as [A R]. split; [exact R|].
  exact (seq_roundtrip _ idx A Hi).
Qed.
Print Assumptions c19_sequential_handle.

(** ... and for every record of an old sequential file (records start every 15
    64-bit units). *)
Theorem c19_sequential_old_handle : forall k idx,
  0 <= k < 2 ^ 22 -> 0 <= idx < 128 ->
  address_from_handle true (make_seq_handle true (30 * k + 1) idx) = 30 * k + 1 /\
  index_from_handle true (make_seq_handle true (30 * k + 1) idx) = idx.
Proof. exact seq_vintage_roundtrip. Qed.
Print Assumptions c19_sequential_old_handle.

(** Two sequential records at different places have different handles. *)
Theorem c19_sequential_unique : forall n n' idx,
  0 <= n -> next_cluster n < 2 ^ 29 -> 0 <= n' -> next_cluster n' < 2 ^ 29 -> 0 <= idx < 128 ->
  make_seq_handle false (next_cluster n + 1) idx = make_seq_handle false (next_cluster n' + 1) idx ->
  next_cluster n = next_cluster n'.
Proof.
  intros n n' idx A B A' B' C E.
  destruct (c19_sequential_handle n idx A B C) as (_ & P & _).
  destruct (c19_sequential_handle n' idx A' B' C) as (_ & Q & _).
  rewrite E in P. lia.
Qed.
Print Assumptions c19_sequential_unique.

Example c19_sequential_instance :
  let n := 2 ^ 25 + 3 in
  next_cluster n = 2 ^ 25 + 32 /\ make_seq_handle false (next_cluster n + 1) 5 = 2 * 2 ^ 29 + (2 ^ 20 + 1) * 128 + 5 /\
  address_from_handle false (2 * 2 ^ 29 + (2 ^ 20 + 1) * 128 + 5) = 2 ^ 25 + 33.
Proof. vm_compute. repeat split. Qed.

(** Refuted: once a sequential file has been opened, the handle of a record
    of the random file in slot 130 designates the file in slot 2. *)
Theorem c19_after_sequential_refuted :
  index_from_handle false (make_rnd_handle 3 7 130) = 130 /\
  index_from_handle true (make_rnd_handle 3 7 130) = 2.
Proof. vm_compute. split; reflexivity. Qed.
Print Assumptions c19_after_sequential_refuted.

(** Refuted beyond 4096 pages, which linked files can reach: page 4096 and
    page 0 share their handles. *)
Theorem c19_many_pages_refuted : forall rec idx, make_rnd_handle 4096 rec idx = make_rnd_handle 0 rec idx.
Proof. intros. unfold make_rnd_handle. reflexivity. Qed.
Print Assumptions c19_many_pages_refuted.
