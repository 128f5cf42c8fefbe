(** C46: the values of a block converted to real numbers and back. *)
From Coq Require Import ZArith List Bool Lia Permutation Reals Lra.
From Flocq Require Import Core BinarySingleNaN.
From Verif Require Import Bits BitIO Xdf BurpTbl BurpTblFacts P_BurpTbl Flo BurpCvt BurpCvtFacts.
Import ListNotations.
Open Scope Z_scope.
Open Scope opt_scope.

(** The descriptions have references of 30 bits and scales in the range of
    [scale_ok]. *)
Definition tbl_ok (pow10 : Z -> f32) (T : list elt) : Prop :=
  NoDup (map e_code T) /\ (forall c s r, In (c, s, r) T -> scale_ok (pow10 s) /\ Z.abs r < 2 ^ 30).

Lemma row_known m pow10 l T mode c s r rw : Permutation T l -> ordered l -> NoDup (map e_code T) -> In (c, s, r) T ->
  cvt_row m pow10 l mode c rw =
  if mode =? 0 then decodes m (pow10 s) r (fst rw)
  else ts <- encodes m (pow10 s) r (snd rw) ;; Some (ts, snd rw).
Proof.
  intros P O N I. unfold cvt_row.
  destruct (bufrchr_found l c (c, s, r) O) as (j & g & -> & J & NG & C); [eapply Permutation_in; eassumption|reflexivity|].
  cbn [bind]. assert ((0 <? j) = true) as -> by (apply Z.ltb_lt; exact J). rewrite NG. cbn [bind].
  assert (g = (c, s, r)) as ->.
  { apply (nodup_code T); [exact N| |exact I|exact C].
    eapply Permutation_in; [symmetry; exact P|eapply nth_error_In; exact NG]. }
  reflexivity.
Qed.

Lemma row_unknown m pow10 l T mode c rw : Permutation T l -> (forall s r, ~ In (c, s, r) T) ->
  cvt_row m pow10 l mode c rw = Some rw.
Proof.
  intros P N. unfold cvt_row. rewrite bufrchr_absent; [reflexivity|].
  intros [[c' s] r] I. cbn. intros ->. apply (N s r). eapply Permutation_in; [symmetry; exact P|exact I].
Qed.

Lemma known_dec (T : list elt) c : (exists s r, In (c, s, r) T) \/ (forall s r, ~ In (c, s, r) T).
Proof.
  destruct (in_dec Z.eq_dec c (map e_code T)) as [I|I].
  - left. apply in_map_iff in I as ([[c' s] r] & E & I). cbn in E. subst c'. exists s, r. exact I.
  - right. intros s r H. apply I. apply (in_map e_code) in H. exact H.
Qed.

(** What decoding a code means: all bits 1 stand for a missing value; the other
    codes stand for (code + reference) / scale, of which the real number has 24
    significant bits; a negative code is first moved up by one. *)
Definition decoded (m e : f32) (r : Z) (v v' : Z) (x : f32) : Prop :=
  (v = -1 /\ v' = -1 /\ x = m) \/
  (v <> -1 /\ v' = (if v <? 0 then v + 1 else v) /\ is_finite x = true /\
   (Rabs (r32 x - IZR (v' + r) / r32 e) <= bpow radix2 (-24) * Rabs (IZR (v' + r) / r32 e))%R).

Lemma decodes_ok m e r vs : scale_ok e -> Forall (fun v => v = -1 \/ Z.abs (unshift v + r) <= 2 ^ 24) vs ->
  exists vs' xs, decodes m e r vs = Some (vs', xs) /\ length vs' = length vs /\ length xs = length vs /\
    forall i, (i < length vs)%nat -> decoded m e r (nth i vs 0) (nth i vs' 0) (nth i xs m).
Proof.
  intros S. induction vs as [|v vs IH]; intros F.
  - exists [], []. repeat split. intros i L. cbn in L. lia.
  - apply Forall_cons_iff in F as [F1 F2]. destruct (IH F2) as (vs' & xs & E & L1 & L2 & D).
    assert (X : exists v' x, decode m e r v = Some (v', x) /\ decoded m e r v v' x).
    { destruct (Z.eq_dec v (-1)) as [->|N].
      - exists (-1), m. split; [reflexivity|left; auto].
      - destruct F1 as [F1|F1]; [contradiction|].
        destruct (decode_ok m e r v S N F1) as (x & DE & FX & H & _).
        exists (unshift v), x. split; [exact DE|right; auto]. }
    destruct X as (v' & x & DE & DD). exists (v' :: vs'), (x :: xs).
    cbn [decodes]. rewrite DE. cbn [bind]. rewrite E. cbn [bind fst snd length].
    repeat split; try congruence. intros [|i] L; cbn [nth]; [exact DD|apply D; lia].
Qed.

Theorem c46_decode : forall m pow10 file t T liste rs, knows file t T -> tbl_ok pow10 T -> length rs = length liste ->
  (forall i s r, In (nth i liste 0, s, r) T -> (i < length liste)%nat ->
     Forall (fun v => v = -1 \/ Z.abs ((if v <? 0 then v + 1 else v) + r) <= 2 ^ 24) (fst (nth i rs ([], [])))) ->
  exists t' rs', mrbcvt m pow10 file t 0 liste rs = Some (0, t', rs') /\ knows file t' T /\ length rs' = length liste /\
    (forall i, (i < length liste)%nat -> (forall s r, ~ In (nth i liste 0, s, r) T) -> nth i rs' ([], []) = nth i rs ([], [])) /\
    (forall i s r, (i < length liste)%nat -> In (nth i liste 0, s, r) T ->
       let vs := fst (nth i rs ([], [])) in
       let vs' := fst (nth i rs' ([], [])) in
       let xs := snd (nth i rs' ([], [])) in
       length vs' = length vs /\ length xs = length vs /\
       forall k, (k < length vs)%nat -> decoded m (pow10 s) r (nth k vs 0) (nth k vs' 0) (nth k xs m)).
Proof.
  intros m pow10 file t T liste rs K [N TO] L H. destruct (knows_get _ _ _ K) as (l & G & P & O).
  unfold mrbcvt. rewrite G.
  assert (X : exists rs', cvt_rows m pow10 l 0 liste rs = Some rs' /\ length rs' = length liste /\
    (forall i, (i < length liste)%nat -> (forall s r, ~ In (nth i liste 0, s, r) T) -> nth i rs' ([], []) = nth i rs ([], [])) /\
    (forall i s r, (i < length liste)%nat -> In (nth i liste 0, s, r) T ->
       let vs := fst (nth i rs ([], [])) in
       let vs' := fst (nth i rs' ([], [])) in
       let xs := snd (nth i rs' ([], [])) in
       length vs' = length vs /\ length xs = length vs /\
       forall k, (k < length vs)%nat -> decoded m (pow10 s) r (nth k vs 0) (nth k vs' 0) (nth k xs m))).
  { clear K G. revert rs L H. induction liste as [|c liste IH]; intros [|rw rs] L H; cbn [length] in L; try lia.
    - exists []. cbn [cvt_rows length]. split; [reflexivity|]. split; [reflexivity|]. split; intros; lia.
    - destruct (IH rs ltac:(lia)) as (rs' & E & L' & A & B).
      { intros i s r I LI. apply (H (S i) s r I). cbn [length]. lia. }
      cbn [cvt_rows]. destruct (known_dec T c) as [(s & r & I)|U].
      + rewrite (row_known m pow10 l T 0 c s r rw P O N I). change (0 =? 0) with true. cbv iota.
        destruct (decodes_ok m (pow10 s) r (fst rw)) as (vs' & xs & DE & L1 & L2 & D).
        { apply (TO c s r I). }
        { apply (H 0%nat s r I). cbn [length]. lia. }
        rewrite DE. cbn [bind]. rewrite E. cbn [bind]. exists ((vs', xs) :: rs'). split; [reflexivity|].
        split; [cbn [length]; congruence|]. split.
        * intros [|i] LI U; cbn [nth]; [exfalso; exact (U s r I)|apply A; [cbn [length] in LI; lia|exact U]].
        * intros [|i] s' r' LI I'; cbn [nth].
          -- assert ((c, s', r') = (c, s, r)) as EE by (apply (nodup_code T); [exact N|exact I'|exact I|reflexivity]).
             assert (s' = s) as -> by congruence. assert (r' = r) as -> by congruence.
             cbv zeta. cbn [fst snd]. repeat split; assumption.
          -- apply B; [cbn [length] in LI; lia|exact I'].
      + rewrite (row_unknown m pow10 l T 0 c rw P U). cbn [bind]. rewrite E. cbn [bind].
        exists (rw :: rs'). split; [reflexivity|]. split; [cbn [length]; congruence|]. split.
        * intros [|i] LI U'; cbn [nth]; [reflexivity|apply A; [cbn [length] in LI; lia|exact U']].
        * intros [|i] s' r' LI I'; cbn [nth]; [exfalso; exact (U s' r' I')|apply B; [cbn [length] in LI; lia|exact I']]. }
  destruct X as (rs' & -> & L' & A & B). cbn [bind]. exists (Some l), rs'.
  split; [reflexivity|]. split; [split; assumption|]. split; [exact L'|]. split; assumption.
Qed.
Print Assumptions c46_decode.

(** Decoded, then coded again: the same codes, when code + reference has at
    most 22 bits. *)
Theorem c46_round_trip : forall m pow10 file t T liste rs, missing_ok m -> knows file t T -> tbl_ok pow10 T -> length rs = length liste ->
  (forall i s r, In (nth i liste 0, s, r) T -> (i < length liste)%nat ->
     Forall (fun v => - 2 ^ 31 <= v < 2 ^ 31 /\ (v = -1 \/ Z.abs ((if v <? 0 then v + 1 else v) + r) < 2 ^ 22)) (fst (nth i rs ([], [])))) ->
  exists t1 rs1 t2 rs2, mrbcvt m pow10 file t 0 liste rs = Some (0, t1, rs1) /\
    mrbcvt m pow10 file t1 1 liste rs1 = Some (0, t2, rs2) /\ map fst rs2 = map fst rs /\ knows file t2 T.
Proof.
  intros m pow10 file t T liste rs M K [N TO] L H. destruct (knows_get _ _ _ K) as (l & G & P & O).
  unfold mrbcvt. rewrite G.
  assert (X : exists rs1 rs2, cvt_rows m pow10 l 0 liste rs = Some rs1 /\ cvt_rows m pow10 l 1 liste rs1 = Some rs2 /\ map fst rs2 = map fst rs).
  { clear K G. revert rs L H. induction liste as [|c liste IH]; intros [|rw rs] L H; cbn [length] in L; try lia.
    - exists [], []. repeat split; reflexivity.
    - destruct (IH rs ltac:(lia)) as (rs1 & rs2 & E1 & E2 & MF).
      { intros i s r I LI. apply (H (S i) s r I). cbn [length]. lia. }
      cbn [cvt_rows]. destruct (known_dec T c) as [(s & r & I)|U].
      + rewrite (row_known m pow10 l T 0 c s r rw P O N I). change (0 =? 0) with true. cbv iota.
        assert (D : exists vs' xs, decodes m (pow10 s) r (fst rw) = Some (vs', xs) /\ encodes m (pow10 s) r xs = Some (fst rw)).
        { specialize (H 0%nat s r I ltac:(cbn [length]; lia)). cbn [nth] in H. destruct (TO c s r I) as [SO RO].
          induction (fst rw) as [|v vs IHv]; [exists [], []; split; reflexivity|].
          apply Forall_cons_iff in H as [[H1 H2] H3]. destruct (IHv H3) as (vs' & xs & DE & EN).
          destruct (value_round_trip m (pow10 s) r v M SO H1 ltac:(lia) H2) as (v' & x & DV & EV).
          exists (v' :: vs'), (x :: xs). cbn [decodes encodes]. rewrite DV. cbn [bind]. rewrite DE, EV. cbn [bind]. rewrite EN.
          split; reflexivity. }
        destruct D as (vs' & xs & DE & EN). rewrite DE. cbn [bind]. rewrite E1. cbn [bind].
        exists ((vs', xs) :: rs1), ((fst rw, xs) :: rs2). split; [reflexivity|].
        rewrite (row_known m pow10 l T 1 c s r (vs', xs) P O N I). change (1 =? 0) with false. cbv iota. cbn [snd].
        rewrite EN. cbn [bind]. rewrite E2. cbn [bind map fst]. split; [reflexivity|]. rewrite MF. reflexivity.
      + rewrite (row_unknown m pow10 l T 0 c rw P U). cbn [bind]. rewrite E1. cbn [bind].
        exists (rw :: rs1), (rw :: rs2). split; [reflexivity|].
        rewrite (row_unknown m pow10 l T 1 c rw P U). cbn [bind]. rewrite E2. cbn [bind map].
        split; [reflexivity|]. rewrite MF. reflexivity. }
  destruct X as (rs1 & rs2 & E1 & E2 & MF). rewrite E1. cbn [bind].
  exists (Some l), rs1, (Some l), rs2. split; [reflexivity|]. cbn [tbl_get]. rewrite E2. cbn [bind].
  split; [reflexivity|]. split; [exact MF|split; assumption].
Qed.
Print Assumptions c46_round_trip.

(** Coded, then decoded: a missing value is missing, another is not, and it
    comes back within half a unit of the scale and two roundings. *)
Definition kept (m e : f32) (x : f32) (v : Z) (y : f32) : Prop :=
  (f32_eqb x m = true /\ v = -1 /\ y = m) \/
  (f32_eqb x m = false /\ v <> -1 /\ is_finite y = true /\
   (Rabs (r32 y - r32 x) * r32 e <= / 2 + bpow radix2 (-22) * Rabs (r32 x * r32 e))%R).

Theorem c46_error : forall m pow10 file t T liste rs, knows file t T -> tbl_ok pow10 T -> length rs = length liste ->
  (forall i s r, In (nth i liste 0, s, r) T -> (i < length liste)%nat ->
     Forall (fun x => f32_eqb x m = true \/ is_finite x = true /\ (Rabs (r32 x * r32 (pow10 s)) <= bpow radix2 22)%R) (snd (nth i rs ([], [])))) ->
  exists t1 rs1 t2 rs2, mrbcvt m pow10 file t 1 liste rs = Some (0, t1, rs1) /\
    mrbcvt m pow10 file t1 0 liste rs1 = Some (0, t2, rs2) /\ knows file t2 T /\
    forall i s r, (i < length liste)%nat -> In (nth i liste 0, s, r) T ->
      let xs := snd (nth i rs ([], [])) in
      let vs := fst (nth i rs1 ([], [])) in
      let ys := snd (nth i rs2 ([], [])) in
      length vs = length xs /\ length ys = length xs /\
      forall k, (k < length xs)%nat -> kept m (pow10 s) (nth k xs m) (nth k vs 0) (nth k ys m).
Proof.
  intros m pow10 file t T liste rs K [N TO] L H. destruct (knows_get _ _ _ K) as (l & G & P & O).
  unfold mrbcvt. rewrite G.
  assert (X : exists rs1 rs2, cvt_rows m pow10 l 1 liste rs = Some rs1 /\ cvt_rows m pow10 l 0 liste rs1 = Some rs2 /\
    forall i s r, (i < length liste)%nat -> In (nth i liste 0, s, r) T ->
      let xs := snd (nth i rs ([], [])) in
      let vs := fst (nth i rs1 ([], [])) in
      let ys := snd (nth i rs2 ([], [])) in
      length vs = length xs /\ length ys = length xs /\
      forall k, (k < length xs)%nat -> kept m (pow10 s) (nth k xs m) (nth k vs 0) (nth k ys m)).
  { clear K G. revert rs L H. induction liste as [|c liste IH]; intros [|rw rs] L H; cbn [length] in L; try lia.
    - exists [], []. repeat split; try reflexivity; cbn [length] in *; lia.
    - destruct (IH rs ltac:(lia)) as (rs1 & rs2 & E1 & E2 & B).
      { intros i s r I LI. apply (H (S i) s r I). cbn [length]. lia. }
      cbn [cvt_rows]. destruct (known_dec T c) as [(s & r & I)|U].
      + rewrite (row_known m pow10 l T 1 c s r rw P O N I). change (1 =? 0) with false. cbv iota.
        assert (D : exists vs vs' ys, encodes m (pow10 s) r (snd rw) = Some vs /\ decodes m (pow10 s) r vs = Some (vs', ys) /\
           length vs = length (snd rw) /\ length ys = length (snd rw) /\
           forall k, (k < length (snd rw))%nat -> kept m (pow10 s) (nth k (snd rw) m) (nth k vs 0) (nth k ys m)).
        { specialize (H 0%nat s r I ltac:(cbn [length]; lia)). cbn [nth] in H. destruct (TO c s r I) as [SO RO].
          induction (snd rw) as [|x xs IHx].
          { exists [], [], []. split; [reflexivity|]. split; [reflexivity|]. split; [reflexivity|]. split; [reflexivity|]. intros k LK. cbn [length] in LK. lia. }
          apply Forall_cons_iff in H as [H1 H3]. destruct (IHx H3) as (vs & vs' & ys & EN & DE & L1 & L2 & KK).
          assert (Y : exists v v' y, encode m (pow10 s) r x = Some v /\ decode m (pow10 s) r v = Some (v', y) /\ kept m (pow10 s) x v y).
          { destruct (f32_eqb x m) eqn:EM.
            - exists (-1), (-1), m. unfold encode. rewrite EM. split; [reflexivity|]. split; [reflexivity|]. left; auto.
            - destruct H1 as [H1|[H1 H2]]; [congruence|].
              destruct (encode_ok m (pow10 s) r x SO H1 EM RO H2) as (v & y & EV & ND & DV & FY & _ & ER).
              exists v, (unshift v), y. split; [exact EV|]. split; [exact DV|]. right; auto. }
          destruct Y as (v & v' & y & EV & DV & KV).
          exists (v :: vs), (v' :: vs'), (y :: ys). cbn [decodes encodes]. rewrite DV, EV. cbn [bind]. rewrite DE, EN. cbn [bind fst snd length].
          split; [reflexivity|]. split; [reflexivity|]. split; [congruence|]. split; [congruence|].
          intros [|k] LK; cbn [nth]; [exact KV|apply KK; lia]. }
        destruct D as (vs & vs' & ys & EN & DE & L1 & L2 & KK). rewrite EN. cbn [bind]. rewrite E1. cbn [bind].
        exists ((vs, snd rw) :: rs1), ((vs', ys) :: rs2). split; [reflexivity|].
        rewrite (row_known m pow10 l T 0 c s r (vs, snd rw) P O N I). change (0 =? 0) with true. cbv iota. cbn [fst].
        rewrite DE. cbn [bind]. rewrite E2. cbn [bind]. split; [reflexivity|].
        intros [|i] s' r' LI I'; cbn [nth].
        * assert ((c, s', r') = (c, s, r)) as EE by (apply (nodup_code T); [exact N|exact I'|exact I|reflexivity]).
          assert (s' = s) as -> by congruence. cbv zeta. cbn [fst snd]. repeat split; assumption.
        * apply (B i s' r'); [cbn [length] in LI; lia|exact I'].
      + rewrite (row_unknown m pow10 l T 1 c rw P U). cbn [bind]. rewrite E1. cbn [bind].
        exists (rw :: rs1), (rw :: rs2). split; [reflexivity|].
        rewrite (row_unknown m pow10 l T 0 c rw P U). cbn [bind]. rewrite E2. cbn [bind].
        split; [reflexivity|].
        intros [|i] s' r' LI I'; cbn [nth]; [exfalso; exact (U s' r' I')|apply (B i s' r'); [cbn [length] in LI; lia|exact I']]. }
  destruct X as (rs1 & rs2 & E1 & E2 & B). rewrite E1. cbn [bind].
  exists (Some l), rs1, (Some l), rs2. split; [reflexivity|]. cbn [tbl_get]. rewrite E2. cbn [bind].
  split; [reflexivity|]. split; [split; assumption|exact B].
Qed.
Print Assumptions c46_error.

(** The scales, for the examples. *)
Definition ten (k : Z) : f32 := if 0 <=? k then f32_of (10 ^ k) else f32_div (f32_of 1) (f32_of (10 ^ (- k))).
Notation m30 := (f32_of (10 ^ 30)).

Notation std3 := [(1025, 2, -5); (1026, -1, 100); (2048, 0, 7)].
Lemma ten_2 : f32_between (-60) 60 (ten 2) = true. Proof. vm_compute. reflexivity. Qed.
Lemma ten_m1 : f32_between (-60) 60 (ten (-1)) = true. Proof. vm_compute. reflexivity. Qed.
Lemma ten_0 : f32_between (-60) 60 (ten 0) = true. Proof. vm_compute. reflexivity. Qed.
Lemma m30_between : f32_between 96 120 m30 = true. Proof. vm_compute. reflexivity. Qed.
Example c46_demo :
  tbl_ok ten std3 /\ missing_ok m30 /\
  match mrbcvt m30 ten (Some std3) None 0 [1026; 77; 1025] [([3; -1], []); ([9], []); ([-2; 1234], [])] with
  | Some (0, t, rs) => Some (map fst rs, option_map (fun x => map fst (snd x)) (mrbcvt m30 ten None t 1 [1026; 77; 1025] rs))
  | _ => None
  end = Some ([[3; -1]; [9]; [-1; 1234]], Some [[3; -1]; [9]; [-2; 1234]]).
Proof.
  split; [|split; [|vm_compute; reflexivity]].
  - split; [repeat constructor; cbn; lia|].
    intros c s r [E|[E|[E|[]]]]; injection E as <- <- <-; (split; [|lia]).
    + exact (f32_between_ok (-60) 60 (ten 2) ten_2).
    + exact (f32_between_ok (-60) 60 (ten (-1)) ten_m1).
    + exact (f32_between_ok (-60) 60 (ten 0) ten_0).
  - destruct (f32_between_ok 96 120 m30 m30_between) as [A [B _]]. split; assumption.
Qed.

(** 1.7 and a missing value meet the hypotheses of [c46_error] for the element
    1025, of which the scale is 100 and the reference -5; the code is 175. *)
Example c46_error_demo :
  Forall (fun x => f32_eqb x m30 = true \/ is_finite x = true /\ (Rabs (r32 x * r32 (ten 2)) <= bpow radix2 22)%R) [f32_div (f32_of 17) (f32_of 10); m30] /\
  match mrbcvt m30 ten (Some std3) None 1 [1025] [([], [f32_div (f32_of 17) (f32_of 10); m30])] with
  | Some (0, _, rs) => Some (map fst rs)
  | _ => None
  end = Some [[175; -1]].
Proof.
  split; [|vm_compute; reflexivity].
  constructor; [|constructor; [left; vm_compute; reflexivity|constructor]]. right.
  destruct (f32_between_ok 0 1 (f32_div (f32_of 17) (f32_of 10))) as [A [B1 B2]]; [vm_compute; reflexivity|].
  destruct (f32_between_ok 6 7 (ten 2)) as [C [D1 D2]]; [vm_compute; reflexivity|].
  split; [exact A|]. revert B1 B2 D1 D2. generalize (r32 (f32_div (f32_of 17) (f32_of 10))) (r32 (ten 2)). intros a b.
  change (bpow radix2 0) with 1%R. change (bpow radix2 1) with 2%R. change (bpow radix2 6) with 64%R. change (bpow radix2 7) with 128%R. intros.
  rewrite Rabs_pos_eq by nra. change (bpow radix2 22) with 4194304%R. nra.
Qed.

(** mrbcvt.F90 128: decoding changes the codes. Decoding them again takes a
    code that stands for a value for a missing one. *)
Definition decode_twice (v : Z) : option (list (list Z) * list (list bool) * list (list bool)) :=
  match mrbcvt m30 ten (Some std3) None 0 [1025] [([v], [])] with
  | Some (0, t1, rs1) =>
    match mrbcvt m30 ten (Some std3) t1 0 [1025] rs1 with
    | Some (0, t2, rs2) =>
      Some (map fst rs1, map (fun r => map (fun x => f32_eqb x m30) (snd r)) rs1, map (fun r => map (fun x => f32_eqb x m30) (snd r)) rs2)
    | _ => None
    end
  | _ => None
  end.
Theorem c46_decode_twice_refuted : decode_twice (-2) = Some ([[-1]], [[false]], [[true]]).
Proof. vm_compute. reflexivity. Qed.
Print Assumptions c46_decode_twice_refuted.

(** A code of 25 bits does not survive: 16777217 becomes 16777216. *)
Definition recode (v : Z) : option (list (list Z)) :=
  match mrbcvt m30 ten (Some [(2048, 0, 0)]) None 0 [2048] [([v], [])] with
  | Some (0, t1, rs1) => option_map (fun x => map fst (snd x)) (mrbcvt m30 ten (Some [(2048, 0, 0)]) t1 1 [2048] rs1)
  | _ => None
  end.
Theorem c46_long_code_refuted : recode 16777217 = Some [[16777216]].
Proof. vm_compute. reflexivity. Qed.
Print Assumptions c46_long_code_refuted.
