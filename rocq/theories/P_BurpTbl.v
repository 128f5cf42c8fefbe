(** C45: the table of elements gives back what the file and the user put in it. *)
From Coq Require Import ZArith List Bool Lia Permutation Sorted.
From Verif Require Import Bits BitIO Xdf BurpTbl BurpTblFacts.
Import ListNotations.
Open Scope Z_scope.
Open Scope opt_scope.

(** What the library knows: [T] is the set of descriptions, still in the file or
    already in memory, where their codes are in order. *)
Definition knows (file : option (list elt)) (t : tstate) (T : list elt) : Prop :=
  match t with
  | None => file = Some T /\ (length T <= 4000)%nat
  | Some l => Permutation T l /\ ordered l
  end.

(** What a user expects in a cell: the description of the code and 1, or the
    cell as it was and 0. *)
Definition described (T : list elt) (c c' : cell) : Prop :=
  let '(code, s0, r0, _) := c in
  (forall s r, In (code, s, r) T -> c' = (code, s, r, 1)) /\
  ((forall s r, ~ In (code, s, r) T) -> c' = (code, s0, r0, 0)).

(** The sort keeps every column and puts the codes in order. *)
Theorem c45_sort : forall l,
  Permutation l (qbrptri l) /\
  (forall i j a b, (i < j)%nat -> nth_error (qbrptri l) i = Some a -> nth_error (qbrptri l) j = Some b -> e_code a <= e_code b).
Proof. intros l. split; [apply qbrptri_perm|apply sorted_nth, qbrptri_sorted]. Qed.
Print Assumptions c45_sort.

(** The search answers on every table, in order or not; what it finds has the
    code; in a table in order it finds every code that is there. *)
Theorem c45_search : forall l c,
  exists j, bufrchr c l = Some j /\
    (j = -1 \/ exists e, 0 < j /\ nth_error l (Z.to_nat (j - 1)) = Some e /\ e_code e = c) /\
    ((forall i k a b, (i < k)%nat -> nth_error l i = Some a -> nth_error l k = Some b -> e_code a <= e_code b) ->
     (exists e, In e l /\ e_code e = c) -> 0 < j).
Proof.
  intros l c. unfold bufrchr. destruct (chr_loop_total (S (length l)) l c 0 (S (length l))) as [j E]; try lia.
  exists j. split; [exact E|]. split; [exact (chr_loop_sound _ _ _ _ _ _ (Nat.lt_0_succ _) E)|].
  intros O (e & I & C). destruct (bufrchr_found l c e O I C) as (j' & g & E' & P & _).
  unfold bufrchr in E'. assert (j = j') by congruence. lia.
Qed.
Print Assumptions c45_search.

Lemma knows_get file t T : knows file t T -> exists l, tbl_get file t = Go l /\ Permutation T l /\ ordered l.
Proof.
  destruct t as [l|]; cbn [knows tbl_get].
  - intros [P O]. exists l. auto.
  - intros [-> L]. destruct (Nat.ltb_spec 4000 (length T)); [lia|]. exists (qbrptri T).
    split; [reflexivity|]. split; [apply qbrptri_perm|apply sorted_nth, qbrptri_sorted].
Qed.

Lemma nodup_code T e e' : NoDup (map e_code T) -> In e T -> In e' T -> e_code e = e_code e' -> e = e'.
Proof.
  induction T as [|x T IH]; [intros _ []|]. cbn [map]. intros N. apply NoDup_cons_iff in N as [N1 N2].
  intros [<-|I] [<-|I'] E; [reflexivity| | |apply IH; assumption].
  - exfalso. apply N1. rewrite E. apply in_map; exact I'.
  - exfalso. apply N1. rewrite <- E. apply in_map; exact I.
Qed.

Lemma cell_described T l c : Permutation T l -> ordered l -> NoDup (map e_code T) ->
  exists c', tbl_cell l c = Some c' /\ described T c c'.
Proof.
  intros P O N. destruct c as [[[code s0] r0] k0]. cbn [tbl_cell described].
  destruct (c45_search l code) as (j & E & S & F). rewrite E. cbn [bind].
  destruct S as [->|(e & J & NE & C)].
  - change (0 <? -1) with false. cbv iota. eexists. split; [reflexivity|]. split; [|reflexivity].
    intros s r I. exfalso.
    assert (0 < -1) as X; [|lia]. apply F; [exact O|]. exists (code, s, r). split; [|reflexivity].
    eapply Permutation_in; eassumption.
  - assert (B : (0 <? j) = true) by (apply Z.ltb_lt; exact J). rewrite B. rewrite NE. cbn [bind].
    eexists. split; [reflexivity|].
    assert (IE : In e T) by (eapply Permutation_in; [symmetry; exact P|eapply nth_error_In; exact NE]).
    split.
    + intros s r I. pose proof (nodup_code T e (code, s, r) N IE I C) as ->. reflexivity.
    + intros H. exfalso. destruct e as [[ec es] er]. cbn in C. subst ec. exact (H es er IE).
Qed.

(** mrbtbl gives every description the library knows, at the first call and at
    the next ones. *)
Theorem c45_table : forall file t T cs, knows file t T -> NoDup (map e_code T) ->
  exists t' cs', mrbtbl file t 4 cs = Some (0, t', cs') /\ Forall2 (described T) cs cs' /\ knows file t' T.
Proof.
  intros file t T cs K N. destruct (knows_get _ _ _ K) as (l & G & P & O).
  unfold mrbtbl. change (negb (4 =? 4)) with false. cbv iota. rewrite G.
  assert (X : exists cs', tbl_cells l cs = Some cs' /\ Forall2 (described T) cs cs').
  { induction cs as [|c cs IH]; cbn [tbl_cells].
    - exists []. split; [reflexivity|constructor].
    - destruct (cell_described T l c P O N) as (c' & -> & D). destruct IH as (cs' & -> & F). cbn [bind].
      eexists. split; [reflexivity|]. constructor; assumption. }
  destruct X as (cs' & -> & F). cbn [bind]. exists (Some l), cs'. repeat split; assumption.
Qed.
Print Assumptions c45_table.

(** A user's table of which all codes are above those of the library is added:
    the library then knows both. *)
Theorem c45_added : forall file t T usr, knows file t T -> (length T + length usr <= 4000)%nat ->
  (forall a b, In a T -> In b usr -> e_code a < e_code b) ->
  exists t' u, mrbsct file t usr = Some (0, t', u) /\ knows file t' (T ++ usr) /\ Permutation usr u.
Proof.
  intros file t T usr K L H. destruct (knows_get _ _ _ K) as (l & G & P & O).
  unfold mrbsct. rewrite G. cbv zeta.
  pose proof (qbrptri_perm usr) as PU. pose proof (qbrptri_sorted usr) as SU. set (u := qbrptri usr) in *. clearbody u.
  destruct (Nat.ltb_spec 4000 (length (l ++ u))) as [X|X].
  { rewrite app_length, <- (Permutation_length P), <- (Permutation_length PU) in X. lia. }
  exists (Some (l ++ u)), u. split; [reflexivity|]. split; [|exact PU]. split; [apply Permutation_app; assumption|].
  intros i j a b IJ EA EB. apply sorted_nth in SU.
  destruct (Nat.lt_ge_cases i (length l)) as [LI|LI]; destruct (Nat.lt_ge_cases j (length l)) as [LJ|LJ].
  - rewrite nth_error_app1 in EA, EB by lia. exact (O i j a b IJ EA EB).
  - rewrite nth_error_app1 in EA by lia. rewrite nth_error_app2 in EB by lia.
    apply Z.lt_le_incl, H.
    + eapply Permutation_in; [symmetry; exact P|eapply nth_error_In; exact EA].
    + eapply Permutation_in; [symmetry; exact PU|eapply nth_error_In; exact EB].
  - lia.
  - rewrite nth_error_app2 in EA, EB by lia. apply (SU (i - length l)%nat (j - length l)%nat a b); [lia|exact EA|exact EB].
Qed.
Print Assumptions c45_added.

(** Wrong number of cells, or no table: the answer says so and nothing changes. *)
Theorem c45_refused : forall file t cs ns, ns <> 4 \/ (ns = 4 /\ t = None /\ file = None) ->
  mrbtbl file t ns cs = Some (if ns =? 4 then 35 else 39, t, cs).
Proof.
  intros file t cs ns [D|(-> & -> & ->)]; unfold mrbtbl; [|reflexivity].
  assert ((ns =? 4) = false) as -> by (apply Z.eqb_neq; exact D). reflexivity.
Qed.
Print Assumptions c45_refused.

(** A table of four elements out of order, and a user's table above it. *)
Notation tbl_std := [(3000, 1, 0); (1025, 2, -5); (2048, 0, 7); (1026, -1, 100)].
Notation tbl_usr := [(9001, 3, 1); (9000, 4, 2)].
Example c45_demo :
  knows (Some tbl_std) None tbl_std /\ NoDup (map e_code tbl_std) /\
  (forall a b, In a tbl_std -> In b tbl_usr -> e_code a < e_code b) /\
  match mrbsct (Some tbl_std) None tbl_usr with
  | Some (0, t, u) => option_map (fun x => snd x) (mrbtbl (Some tbl_std) t 4 [(2048, 9, 9, 9); (9001, 9, 9, 9); (5, 9, 9, 9)])
  | _ => None
  end = Some [(2048, 0, 7, 1); (9001, 3, 1, 1); (5, 9, 9, 0)].
Proof.
  split; [split; [reflexivity|cbn [length]; lia]|]. split.
  - repeat constructor; cbn [map e_code fst snd In]; lia.
  - split; [|vm_compute; reflexivity].
    intros a b IA IB. cbn [In] in IA, IB.
    destruct IA as [<-|[<-|[<-|[<-|[]]]]]; destruct IB as [<-|[<-|[]]]; cbn [e_code fst]; lia.
Qed.

(** mrbcvt.F90 174-183: the user's table is put at the end whatever its codes.
    The user's elements are then not found, nor are some of the library's. *)
Theorem c45_added_refuted :
  exists std usr t u, mrbsct (Some std) None usr = Some (0, t, u) /\ NoDup (map e_code (std ++ usr)) /\
    (exists e, In e usr /\ option_map snd (mrbtbl (Some std) t 4 [(e_code e, 0, 0, 0)]) = Some [(e_code e, 0, 0, 0)]) /\
    (exists e, In e std /\ option_map snd (mrbtbl (Some std) t 4 [(e_code e, 0, 0, 0)]) = Some [(e_code e, 0, 0, 0)]).
Proof.
  exists [(10, 0, 0); (20, 0, 0); (30, 0, 0); (40, 0, 0); (50, 0, 0)], [(5, 0, 0); (6, 0, 0); (60, 0, 0)]. do 2 eexists.
  split; [vm_compute; reflexivity|]. split; [repeat constructor; cbn; lia|]. split.
  - exists (5, 0, 0). split; [left; reflexivity|vm_compute; reflexivity].
  - exists (50, 0, 0). split; [do 4 right; left; reflexivity|vm_compute; reflexivity].
Qed.
Print Assumptions c45_added_refuted.
