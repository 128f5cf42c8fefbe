(** Word addressable files: model of c_wawrit2 and c_waread2
    (src/primitives/c_baseio.c 908-955, 1005-1037) and of the direct, non
    paged branches of qqcwawr and qqcward (2227-2318, 2340-2408, WA_PAGE_SIZE
    = 0, local file). A file is the list of its 32-bit words; addresses are 1
    based. The byte swap done before a write and after a read cancels, so
    words are kept in native order. Short writes of the system call are
    modelled in WaShort.v. *)
From Coq Require Import ZArith List Lia Bool.
From Verif Require Import Bits.
Import ListNotations.
Open Scope Z_scope.

Definition disk := list Z.
Definition dsize (d : disk) : Z := Z.of_nat (length d).

(** c_baseio.c 2287-2288: lseek then write. Writing past the end extends the
    file. [i] is 0 based and at most the length of the file. *)
Definition write_at (d : disk) (i : nat) (ws : list Z) : disk :=
  firstn i d ++ ws ++ skipn (i + length ws) d.

Definition WA_HOLE : Z := 2048.

(** c_baseio.c 943-945: the filler of a hole is an array of 2048 words of
    which memset clears 2048 bytes; the rest, [junk], is whatever the stack
    holds. *)
Definition scrap (junk : nat -> Z) (n : nat) : list Z :=
  map (fun k => if (k <? 512)%nat then 0 else junk k) (seq 0 n).

(** c_baseio.c 908-955: c_wawrit2, as called by c_wawrit (result ignored).
    [ro]: attr.read_only, the write is refused and the file unchanged. [None]:
    exit(1), beyond EOF + 2048, or address 0 (writes at the current file
    position, not modelled). *)
Definition wawrit (junk : nat -> Z) (ro : bool) (d : disk) (off : Z) (ws : list Z) : option disk :=
  if ro then Some d else
  if off <? 1 then None else
  if dsize d + WA_HOLE <? off then None else
  let d1 := if dsize d + 1 <? off
            then write_at d (length d) (scrap junk (Z.to_nat (off - dsize d)))
            else d in
  Some (write_at d1 (Z.to_nat (off - 1)) ws).

(** c_baseio.c 1005-1037: c_waread2. The result is the return code and the
    words stored at the start of the caller's buffer. [None]: a negative
    number of words is passed to read(2) and the program exits (2376-2380), or
    address 0. *)
Definition waread (d : disk) (off n : Z) : option (Z * list Z) :=
  if dsize d + 2 <? off then Some (-2, []) else
  if dsize d =? 0 then Some (0, []) else
  if off <? 1 then None else
  let n1 := if dsize d <? off + n - 1 then n - (off + n - 1 - dsize d) else n in
  if n1 =? 0 then Some (0, []) else
  if n1 <? 0 then None else
  Some (n1, firstn (Z.to_nat n1) (skipn (Z.to_nat (off - 1)) d)).

(** * Library: reading back what was written *)

Definition range (d : disk) (i n : nat) : list Z := firstn n (skipn i d).

Lemma write_at_length d i ws : (i <= length d)%nat ->
  length (write_at d i ws) = Nat.max (length d) (i + length ws).
Proof.
  intros. unfold write_at. rewrite !app_length, firstn_length, skipn_length. lia.
Qed.

Lemma write_at_nth d i ws k : (i <= length d)%nat ->
  nth_error (write_at d i ws) k =
  if (i <=? k)%nat && (k <? i + length ws)%nat then nth_error ws (k - i) else nth_error d k.
Proof.
  intros H. unfold write_at.
  destruct (Nat.ltb_spec k i) as [L|L].
  - rewrite nth_error_app1 by (rewrite firstn_length; lia).
    replace (i <=? k)%nat with false by (symmetry; apply Nat.leb_gt; lia). cbn [andb].
    rewrite <- (firstn_skipn i d) at 2. rewrite nth_error_app1; [reflexivity|]. rewrite firstn_length. lia.
  - rewrite nth_error_app2 by (rewrite firstn_length; lia).
    rewrite firstn_length, Nat.min_l by lia.
    replace (i <=? k)%nat with true by (symmetry; apply Nat.leb_le; lia). cbn [andb].
    destruct (Nat.ltb_spec k (i + length ws)) as [M|M].
    + rewrite nth_error_app1 by lia. reflexivity.
    + rewrite nth_error_app2 by lia.
      rewrite <- (firstn_skipn (i + length ws) d) at 2.
      destruct (Nat.le_gt_cases (i + length ws) (length d)) as [N|N].
      * rewrite (nth_error_app2 (firstn _ _)) by (rewrite firstn_length; lia).
        rewrite firstn_length, Nat.min_l by lia. f_equal. lia.
      * rewrite (skipn_all2 (n := i + length ws) d) by lia. rewrite app_nil_r.
        rewrite (proj2 (nth_error_None _ _)) by (simpl; lia).
        symmetry. apply nth_error_None. rewrite firstn_length. lia.
Qed.

Lemma range_length d i n : (i + n <= length d)%nat -> length (range d i n) = n.
Proof. intros. unfold range. rewrite firstn_length, skipn_length. lia. Qed.

Lemma nth_skipn {A} i (l : list A) k : nth_error (skipn i l) k = nth_error l (i + k).
Proof.
  revert l. induction i; intros; [reflexivity|]. destruct l; [|apply IHi].
  cbn [skipn Nat.add nth_error]. destruct k; reflexivity.
Qed.

Lemma nth_firstn {A} n (l : list A) k : nth_error (firstn n l) k = if (k <? n)%nat then nth_error l k else None.
Proof.
  revert l k. induction n; intros.
  - cbn [firstn]. destruct k; reflexivity.
  - destruct l; cbn [firstn].
    + destruct k; cbn [nth_error]; [reflexivity|]. destruct (S k <? S n)%nat; reflexivity.
    + destruct k; cbn [nth_error]; [reflexivity|]. rewrite IHn. reflexivity.
Qed.

Lemma range_nth d i n k : nth_error (range d i n) k = if (k <? n)%nat then nth_error d (i + k) else None.
Proof. unfold range. rewrite nth_firstn, nth_skipn. reflexivity. Qed.

Lemma nth_error_ext {A} (l l' : list A) : (forall k, nth_error l k = nth_error l' k) -> l = l'.
Proof.
  revert l'. induction l; intros l' H; destruct l' as [|b l'].
  - reflexivity.
  - specialize (H 0%nat). discriminate.
  - specialize (H 0%nat). discriminate.
  - f_equal; [specialize (H 0%nat); cbn in H; congruence|]. apply IHl. intros k. apply (H (S k)).
Qed.

(** What was written is read back. *)
Lemma range_write_same d i ws : (i <= length d)%nat -> range (write_at d i ws) i (length ws) = ws.
Proof.
  intros H. apply nth_error_ext. intros k. rewrite range_nth, write_at_nth by exact H.
  destruct (Nat.ltb_spec k (length ws)).
  - replace (i <=? i + k)%nat with true by (symmetry; apply Nat.leb_le; lia).
    replace (i + k <? i + length ws)%nat with true by (symmetry; apply Nat.ltb_lt; lia).
    cbn [andb]. f_equal. lia.
  - symmetry. apply nth_error_None. lia.
Qed.

(** Other ranges are unchanged. *)
Lemma range_write_other d i ws j n : (i <= length d)%nat ->
  (j + n <= i \/ i + length ws <= j)%nat -> range (write_at d i ws) j n = range d j n.
Proof.
  intros H D. apply nth_error_ext. intros k. rewrite !range_nth. destruct (Nat.ltb_spec k n); [|reflexivity].
  rewrite write_at_nth by exact H.
  destruct (Nat.leb_spec i (j + k)); cbn [andb]; [|reflexivity].
  destruct (Nat.ltb_spec (j + k) (i + length ws)); [|reflexivity]. lia.
Qed.

Lemma range_all d : range d 0 (length d) = d.
Proof. unfold range. cbn [skipn]. apply firstn_all. Qed.

(** A write that does not leave a hole. *)
Lemma wawrit_plain junk d off ws : 1 <= off <= dsize d + 1 ->
  wawrit junk false d off ws = Some (write_at d (Z.to_nat (off - 1)) ws).
Proof.
  intros H. unfold wawrit, WA_HOLE.
  replace (off <? 1) with false by (symmetry; apply Z.ltb_ge; lia).
  replace (dsize d + 2048 <? off) with false by (symmetry; apply Z.ltb_ge; lia).
  replace (dsize d + 1 <? off) with false by (symmetry; apply Z.ltb_ge; lia). reflexivity.
Qed.

Lemma waread_plain d off n : 1 <= off -> 0 < n -> off + n - 1 <= dsize d ->
  waread d off n = Some (n, range d (Z.to_nat (off - 1)) (Z.to_nat n)).
Proof.
  intros. unfold waread.
  replace (dsize d + 2 <? off) with false by (symmetry; apply Z.ltb_ge; lia).
  replace (dsize d =? 0) with false by (symmetry; apply Z.eqb_neq; lia).
  replace (off <? 1) with false by (symmetry; apply Z.ltb_ge; lia).
  replace (dsize d <? off + n - 1) with false by (symmetry; apply Z.ltb_ge; lia).
  replace (n =? 0) with false by (symmetry; apply Z.eqb_neq; lia).
  replace (n <? 0) with false by (symmetry; apply Z.ltb_ge; lia). reflexivity.
Qed.
