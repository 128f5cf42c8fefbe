(** Record handles of the XDF layer: model of the handle macros of
    src/fstd98/qstdir.h 256-282 and of make_seq_handle / address_from_handle
    (src/fstd98/xdf98.c 190-204, 3143-3185). Handles are non negative C ints;
    the model uses Z and the same masks and shifts. *)
From Coq Require Import ZArith Bool.
Open Scope Z_scope.

(** qstdir.h 262: MAKE_RND_HANDLE(pageno, recno, file_index). *)
Definition make_rnd_handle (page rec idx : Z) : Z :=
  Z.lor (Z.land idx 0x3FF) (Z.lor (Z.shiftl (Z.land rec 0x1FF) 10) (Z.shiftl (Z.land page 0xFFF) 19)).

(** qstdir.h 270: INDEX_FROM_HANDLE. [seqop] is the global flag STDSEQ_opened,
    set for ever once a sequential file has been opened (xdf98.c 1795). *)
Definition index_from_handle (seqop : bool) (h : Z) : Z :=
  if seqop then Z.land 0x7F h else Z.land 0x3FF h.

(** qstdir.h 272: RECORD_FROM_HANDLE. *)
Definition record_from_handle (h : Z) : Z := Z.land 0x1FF (Z.shiftr h 10).

(** qstdir.h 274: PAGENO_FROM_HANDLE. *)
Definition pageno_from_handle (h : Z) : Z := Z.land 0xFFF (Z.shiftr h 19).

(** qstdir.h 267: MAKE_SEQ_HANDLE(cluster, address, file_index). The shift of
    the cluster into the sign bit is done modulo 2^32 by the C compiler; the
    model keeps the handle as a non negative 32-bit pattern. *)
Definition mk_seq_handle (cluster addr idx : Z) : Z :=
  Z.lor idx (Z.lor (Z.shiftl (Z.land addr 0x3FFFFF) 7) (Z.shiftl cluster 29)).

(** qstdir.h 277-279. *)
Definition address_from_hndl (h : Z) : Z := Z.land 0x3FFFFF (Z.shiftr h 7).
Definition cluster_from_handle (h : Z) : Z := Z.land 3 (Z.shiftr h 29).

(** xdf98.c 3146-3185: make_seq_handle. [address] is a word address of origin
    1; [vintage] is fte->fstd_vintage_89. *)
Definition make_seq_handle (vintage : bool) (address idx : Z) : Z :=
  let a := Z.shiftr (address - 1) 1 in
  if vintage then mk_seq_handle 0 (a / 15) idx
  else if 0x4000000 <=? a then mk_seq_handle 3 (Z.shiftr a 6) idx
  else if 0x1000000 <=? a then mk_seq_handle 2 (Z.shiftr a 4) idx
  else if 0x400000 <=? a then mk_seq_handle 1 (Z.shiftr a 2) idx
  else mk_seq_handle 0 a idx.

(** xdf98.c 190-204: address_from_handle (the file kept to "* 2 + 1"). *)
Definition address_from_handle (vintage : bool) (h : Z) : Z :=
  let a := Z.shiftl (address_from_hndl h) (2 * cluster_from_handle h) in
  let a := if vintage then a * 15 else a in
  a * 2 + 1.

(** xdf98.c 2310-2322 (c_xdfput): granularity, in 32-bit words, of the address
    of the record that follows one ending at word [n] of a sequential file. *)
Definition cluster_size (n : Z) : Z :=
  let m := Z.shiftr n 18 in
  if 512 <=? m then 128 else if 128 <=? m then 32 else if 32 <=? m then 8 else 2.

(** Address, origin 0, of the next record: [n] rounded up. *)
Definition next_cluster (n : Z) : Z :=
  (n + cluster_size n - 1) / cluster_size n * cluster_size n.
