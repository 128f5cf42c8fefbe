(** C56 to C58: the selection of records by sets of criteria
    (fst_select_*, excdes_new.c). *)
From Coq Require Import ZArith List Bool Lia Reals Psatz.
From Flocq Require Import Core BinarySingleNaN.
From Verif Require Import Bits Flo FloatDouble ConvipMain Convip Excdes ExcdesSpec ExcdesFacts ExcdesIp ExcdesDates ExcdesHist.
From Verif Require Dates.
Import ListNotations.
Open Scope Z_scope.

(** * C56: the verdict after any history *)
(** After any history of accepted calls, every record gets the verdict of the
    sets as they were described, and the answer is always defined. *)
Theorem c56_verdict noip cs t q : runs start cs t -> Forall fair cs -> a_record q -> clear_of (fold_left after cs (no_sets false)) q ->
  exists v, option_map fst (fstmatch_req noip t (Some q)) = Some v /\ verdict noip (fold_left after cs (no_sets false)) q v.
Proof.
  intros R F Q C. pose proof (runs_inv _ _ _ R _ start_inv F) as I. destruct (inv_verdict noip _ _ q I Q C) as (v & E & V). exists v. rewrite E. split; [reflexivity|exact V].
Qed.
Print Assumptions c56_verdict.

(** Asking changes no later answer. *)
Theorem c56_asking noip t q v t' : fstmatch_req noip t q = Some (v, t') -> forall q', option_map fst (fstmatch_req noip t' q') = option_map fst (fstmatch_req noip t q').
Proof.
  assert (E : forall t q', t_off t = false -> fstmatch_req noip (ready t) q' = fstmatch_req noip t q').
  { intros t0 q' O. unfold fstmatch_req. assert (O' : t_off (ready t0) = false) by (unfold ready; destruct (t_fresh t0); exact O). rewrite O, O', ready_ready. reflexivity. }
  intros H q'. unfold fstmatch_req in H. destruct (t_off t) eqn:O; [injection H as _ <-; reflexivity|].
  assert (T : t' = ready t).
  { destruct q as [q|]; [|injection H as _ <-; reflexivity]. unfold fstmatch_parm in H. rewrite ready_ready in H. cbv zeta in H. destruct (match_loop _ _ _ _ _ _ _ _); [|discriminate]. cbn [bind] in H. injection H as _ <-. reflexivity. }
  subst t'. rewrite E by exact O. reflexivity.
Qed.
Print Assumptions c56_asking.

(** A record that cannot be described is refused, unless the filters are off. *)
Theorem c56_no_record noip t : option_map fst (fstmatch_req noip t None) = Some (if t_off t then 1 else 0).
Proof. unfold fstmatch_req. destruct (t_off t); reflexivity. Qed.
Print Assumptions c56_no_record.

(** ** Non-trivial histories *)
Fixpoint play (t : table) (cs : list call) : option table :=
  match cs with
  | [] => Some t
  | c :: cs => match run_call t c with Some (st, t') => if 0 <=? st then play t' cs else None | None => None end
  end.
Lemma play_runs cs : forall t t', play t cs = Some t' -> runs t cs t'.
Proof.
  induction cs as [|c cs IH]; intros t t' H; cbn [play] in H; [injection H as <-; constructor|].
  destruct (run_call t c) as [[st t1]|] eqn:E; [|discriminate]. destruct (Z.leb_spec 0 st); [|discriminate]. econstructor; [exact E|exact H0|apply IH; exact H].
Qed.
Definition answer (cs : list call) (q : params) : option Z := match play start cs with Some t => option_map fst (fstmatch_req (fun _ => false) t (Some q)) | None => None end.
(** TT at 500 or 850 mb wanted, GZ not wanted; and a record of each name. *)
Definition TT : text := [84; 84; 32; 32].
Definition GZ : text := [71; 90; 32; 32].
Definition rec0 (name : text) (date ip1 : Z) : params :=
  {| q_date := date; q_ni := 10; q_nj := 20; q_nk := 1; q_ip1 := ip1; q_ip2 := 0; q_ip3 := 0; q_typvar := [80; 32]; q_nomvar := name; q_etiket := [82; 49]; q_grtyp := 71; q_ig1 := 1; q_ig2 := 2; q_ig3 := 3; q_ig4 := 4 |}.
Definition some_calls : list call :=
  [Desire; Select Current (Nomvar [[84; 84]] 1); Select Current (Ip 1 [500; 850] 2); Exclure; Select Current (Nomvar [[71; 90]] 1); Select Current (Date [471623955; -2; 471711395; -3; 6] 5)].
Example c56_verdict_ex : (exists t, runs start some_calls t) /\ Forall fair some_calls /\ a_record (rec0 TT 471623955 41394464) /\ clear_of (fold_left after some_calls (no_sets false)) (rec0 TT 471623955 41394464) /\
  answer some_calls (rec0 TT 471623955 41394464) = Some 1 /\ answer some_calls (rec0 TT 471623955 300) = Some 0 /\ answer some_calls (rec0 GZ 471623955 500) = Some 0.
Proof.
  split; [|split; [|split; [|split; [|vm_compute; repeat split]]]].
  - destruct (play start some_calls) as [t|] eqn:E; [exists t; apply play_runs; exact E|vm_compute in E; discriminate].
  - assert (S1 : stamp 471623955) by (split; [lia|split; vm_compute; discriminate]). assert (S2 : stamp 471711395) by (split; [lia|split; vm_compute; discriminate]).
    assert (P1 : fair (Select Current (Nomvar [[84; 84]] 1))) by (apply Forall_cons; [repeat constructor; discriminate|apply Forall_nil]).
    assert (P2 : fair (Select Current (Nomvar [[71; 90]] 1))) by (apply Forall_cons; [repeat constructor; discriminate|apply Forall_nil]).
    assert (P3 : fair (Select Current (Ip 1 [500; 850] 2))) by (split; [lia|]; apply il_values; [discriminate|]; repeat (apply Forall_cons; [lia|]); apply Forall_nil).
    assert (P4 : fair (Select Current (Date [471623955; -2; 471711395; -3; 6] 5))) by (apply dl_every; [exact S1|exact S2|lia]).
    unfold some_calls. repeat (apply Forall_cons; [first [assumption|exact I]|]). apply Forall_nil.
  - repeat split; cbn; try lia; repeat constructor; discriminate.
  - intros n. cbn [fold_left after some_calls with_set sets]. cbn -[Z.eqb]. destruct (n =? 1); [|destruct (n =? 0); exact I]. cbn. intros k H. vm_compute in H. injection H as <-. discriminate.
Qed.

(** * C57: how near two levels must be *)
(** A criterion on a level takes the levels of the same kind within a millionth:
    it refuses beyond 11 and takes below 9 ten millionths. *)
Lemma frac32 n : Z.abs n < 2 ^ 24 -> fmt32 (IZR n * bpow radix2 (-24)).
Proof. intros H. apply generic_format_FLT. exists (Float radix2 n (-24)); [reflexivity|exact H|cbn; lia]. Qed.
Lemma frac32_above n : Z.abs n < 2 ^ 24 -> fmt32 (IZR n * bpow radix2 (-23)).
Proof. intros H. apply generic_format_FLT. exists (Float radix2 n (-23)); [reflexivity|exact H|cbn; lia]. Qed.
Theorem c57_near ip v : same_value ip v -> kind ip = kind v /\ (Rabs (value ip - value v) <= 11 / 10000000 * Rabs (value v))%R.
Proof.
  intros (K & NZ & H). split; [exact K|]. set (x := (value ip / value v)%R) in *. replace (value ip) with (x * value v)%R by (unfold x; field; exact NZ).
  replace (x * value v - value v)%R with ((x - 1) * value v)%R by ring. rewrite Rabs_mult. apply Rmult_le_compat_r; [apply Rabs_pos|]. apply Rabs_def2 in H as [H1 H2].
  assert (B23 : bpow radix2 (-23) = (/ 8388608)%R) by reflexivity. assert (B24 : bpow radix2 (-24) = (/ 16777216)%R) by reflexivity.
  apply Rabs_le. split.
  - destruct (Rle_or_lt x (IZR 16777199 * bpow radix2 (-24))) as [L|L]; [|rewrite B24 in L; lra]. apply rnd32_le in L. rewrite (rnd32_id (IZR 16777199 * _)) in L by (apply frac32; lia). rewrite B24 in L. lra.
  - destruct (Rle_or_lt (IZR 8388617 * bpow radix2 (-23)) x) as [L|L]; [|rewrite B23 in L; lra]. apply rnd32_le in L. rewrite (rnd32_id (IZR 8388617 * _)) in L by (apply frac32_above; lia). rewrite B23 in L. lra.
Qed.
Print Assumptions c57_near.
Theorem c57_taken ip v : kind ip = kind v -> value v <> 0%R -> (Rabs (value ip - value v) <= 9 / 10000000 * Rabs (value v))%R -> same_value ip v.
Proof.
  intros K NZ H. split; [exact K|]. split; [exact NZ|]. set (x := (value ip / value v)%R) in *. replace (value ip) with (x * value v)%R in H by (unfold x; field; exact NZ).
  replace (x * value v - value v)%R with ((x - 1) * value v)%R in H by ring. rewrite Rabs_mult in H. apply Rmult_le_reg_r in H; [|apply Rabs_pos_lt; exact NZ]. apply Rabs_le_inv in H as [H1 H2].
  assert (B23 : bpow radix2 (-23) = (/ 8388608)%R) by reflexivity. assert (B24 : bpow radix2 (-24) = (/ 16777216)%R) by reflexivity.
  apply Rabs_def1.
  - assert (L : (x <= IZR 8388616 * bpow radix2 (-23))%R) by (rewrite B23; lra). apply rnd32_le in L. rewrite (rnd32_id (IZR 8388616 * _)) in L by (apply frac32_above; lia). rewrite B23 in L. lra.
  - assert (L : (IZR 16777200 * bpow radix2 (-24) <= x)%R) by (rewrite B24; lra). apply rnd32_le in L. rewrite (rnd32_id (IZR 16777200 * _)) in L by (apply frac32; lia). rewrite B24 in L. lra.
Qed.
Print Assumptions c57_taken.
Example c57_ex : kind 41394464 = 2 /\ same_value 41394464 500.
Proof.
  split; [vm_compute; reflexivity|].
  assert (E : value 41394464 = value 500).
  { assert (Q : f32_eqb (fst (from_ip 41394464)) (fst (from_ip 500)) = true) by (vm_compute; reflexivity). rewrite f32_eqb_ok in Q by (vm_compute; reflexivity).
    unfold value. destruct (Req_bool_spec (r32 (fst (from_ip 41394464))) (r32 (fst (from_ip 500)))); [assumption|discriminate]. }
  assert (L : (0 < value 500)%R).
  { assert (Q : f32_ltb (B754_zero false) (fst (from_ip 500)) = true) by (vm_compute; reflexivity). rewrite f32_ltb_ok in Q by (vm_compute; reflexivity).
    unfold value. destruct (Rlt_bool_spec (r32 (B754_zero false)) (r32 (fst (from_ip 500)))); [assumption|discriminate]. }
  apply c57_taken; [vm_compute; reflexivity|lra|]. rewrite E. replace (value 500 - value 500)%R with 0%R by ring. rewrite Rabs_R0. pose proof (Rabs_pos (value 500)). lra.
Qed.

(** * C58: the calls that are accepted *)
Theorem c58_accepts cs t n des c : runs start cs t -> Forall fair cs -> 0 <= n < 50 -> fair (Select (Given n des) c) -> complete c ->
  (on (sets (fold_left after cs (no_sets false)) n) = true -> want (sets (fold_left after cs (no_sets false)) n) = (des =? 1)) ->
  exists t', run_call t (Select (Given n des) c) = Some (0, t').
Proof. intros R F. apply select_accepts. exact (runs_inv _ _ _ R _ start_inv F). Qed.
Print Assumptions c58_accepts.
(** A set wants or does not want: a call with the other mode is refused. *)
Theorem c58_refuses cs t n des c : runs start cs t -> Forall fair cs -> 0 <= n < 50 ->
  on (sets (fold_left after cs (no_sets false)) n) = true -> want (sets (fold_left after cs (no_sets false)) n) <> (des =? 1) ->
  exists t', run_call t (Select (Given n des) c) = Some (-1, t').
Proof.
  intros R F N O W. destruct (runs_inv _ _ _ R _ start_inv F) as (SH & _ & SS). apply ready_shaped in SH as [L _].
  assert (E : exists r, at_ (t_req (ready t)) n = Some r).
  { unfold at_. destruct (Z.leb_spec 0 n); [|lia]. destruct (nth_error _ _) eqn:E; [eauto|]. apply nth_error_None in E. lia. }
  destruct E as (r & E). pose proof (ss_sets _ _ SS _ _ E) as X.
  assert (G : forall nelm f, exists t', selecting t n des nelm f = Some (-1, t')).
  { intros nelm f. unfold selecting. rewrite E. cbn [bind]. replace (_ || (negb (r_use r =? 0) && _)) with true; [eexists; reflexivity|]. symmetry. apply orb_true_iff. right.
    pose proof (proj2 (rs_on _ _ X) O) as U. destruct (Z.eqb_spec (r_use r) 0); [contradiction|]. rewrite (rs_want _ _ X O). unfold exdes_of. destruct (des =? 1), (want (sets _ n)); try reflexivity; congruence. }
  cbn [run_call]. destruct c; cbn [select]; apply G.
Qed.
Print Assumptions c58_refuses.
(** A refused call leaves the other sets, the group and the current set. *)
Lemma nth_error_put_other {A} (l : list A) n m x : n <> m -> nth_error (put l n x) m = nth_error l m.
Proof. revert n m. induction l as [|a l IH]; intros [|n] [|m] H; cbn; try reflexivity; [congruence|apply IH; congruence]. Qed.
Theorem c58_refused t n des c t' : run_call t (Select (Given n des) c) = Some (-1, t') ->
  (forall m, m <> n -> at_ (t_req t') m = at_ (t_req (ready t)) m) /\ t_first t' = t_first (ready t) /\ t_last t' = t_last (ready t) /\ t_bundle t' = t_bundle (ready t) /\ t_desire t' = t_desire (ready t) /\ t_off t' = t_off (ready t).
Proof.
  assert (G : forall nelm f, selecting t n des nelm f = Some (-1, t') -> exists r, 0 <= n /\ t' = with_req (ready t) (put (t_req (ready t)) (Z.to_nat n) r)).
  { intros nelm f H. unfold selecting in H. destruct (at_ _ n) as [r|] eqn:E; [|discriminate]. apply at_some in E as [N _]. cbn [bind] in H. match type of H with bind ?e _ = _ => destruct e as [[st r']|] end; [|discriminate]. cbn [bind] in H. injection H as _ <-. exists r'. split; [lia|reflexivity]. }
  intros H. assert (X : exists r, 0 <= n /\ t' = with_req (ready t) (put (t_req (ready t)) (Z.to_nat n) r)) by (cbn [run_call] in H; destruct c; cbn [select] in H; eapply G; exact H).
  destruct X as (r & N & ->). split; [|repeat split]. intros m M. cbn [with_req t_req]. unfold at_. destruct (Z.leb_spec 0 m); [|reflexivity]. apply nth_error_put_other. lia.
Qed.
Print Assumptions c58_refused.

Example c58_ex : exists t t', runs start [Desire; Select Current (Nomvar [[84; 84]] 1)] t /\ on (sets (fold_left after [Desire; Select Current (Nomvar [[84; 84]] 1)] (no_sets false)) 0) = true /\
  run_call t (Select (Given 0 0) (Typvar [[80]] 1)) = Some (-1, t') /\ complete (Typvar [[80]] 1) /\ fair (Select (Given 0 1) (Typvar [[80]] 1)).
Proof.
  assert (H : match play start [Desire; Select Current (Nomvar [[84; 84]] 1)] with Some t => match run_call t (Select (Given 0 0) (Typvar [[80]] 1)) with Some (-1, _) => True | _ => False end | None => False end) by (vm_compute; exact I).
  destruct (play start _) as [t|] eqn:E; [|contradiction]. apply play_runs in E. destruct (run_call t _) as [[[| |[| |]] t']|] eqn:R; try contradiction. exists t, t'. split; [exact E|]. split; [reflexivity|]. split; [exact R|].
  split; [split; [lia|discriminate]|]. repeat constructor. discriminate.
Qed.

(** * What the code does not do *)
(** Each time a history of accepted calls, a record, and the answer the code gives. *)
Definition shows (cs : list call) (q : params) (v : Z) : Prop := exists t, runs start cs t /\ option_map fst (fstmatch_req (fun _ => false) t (Some q)) = Some v.
Lemma shows_by cs q v : answer cs q = Some v -> shows cs q v.
Proof. unfold answer, shows. intros H. destruct (play start cs) as [t|] eqn:E; [|discriminate]. exists t. split; [apply play_runs; exact E|exact H]. Qed.
Definition want1 (c : criterion) : list call := [Desire; Select Current c].
(** The record satisfies the only set. *)
Definition in_set (c : criterion) (q : params) : Prop := satisfies (fun _ => false) (sets (fold_left after (want1 c) (no_sets false)) 0) q.

(** Until 500 mb: 700 mb is taken. *)
Theorem c57_open_refuted : shows (want1 (Ip 1 [-2; 500] 2)) (rec0 TT 471623955 700) 1 /\ ~ in_set (Ip 1 [-2; 500] 2) (rec0 TT 471623955 700).
Proof.
  split; [apply shows_by; vm_compute; reflexivity|]. intros (_ & _ & _ & _ & _ & _ & H & _). change (ip_ok true [-2; 500] 700) in H. destruct H as (_ & _ & H). unfold value in H.
  assert (L : f32_ltb (fst (from_ip 500)) (fst (from_ip 700)) = true) by (vm_compute; reflexivity). rewrite f32_ltb_ok in L by (vm_compute; reflexivity).
  destruct (Rlt_bool_spec (r32 (fst (from_ip 500))) (r32 (fst (from_ip 700)))); [lra|discriminate].
Qed.
Print Assumptions c57_open_refuted.
(** ig4 = 4 asked: a record with ig4 = 4 and ig2 = 2 is refused. *)
Definition ig4_only : suppl := {| s_ni := -1; s_nj := -1; s_nk := -1; s_ig1 := -1; s_ig2 := -1; s_ig3 := -1; s_ig4 := 4; s_grtyp := 32 |}.
Theorem c57_ig4_refuted : shows (want1 (Suppl ig4_only)) (rec0 TT 471623955 700) 0 /\ in_set (Suppl ig4_only) (rec0 TT 471623955 700).
Proof. split; [apply shows_by; vm_compute; reflexivity|]. repeat split; cbn; unfold as_asked; auto. Qed.
Print Assumptions c57_ig4_refuted.
(** From a date of the year 9000 on: a record of 2024 is taken, because the stamp is below 0. *)
Theorem c57_extended_refuted : exists far, Dates.mode_m3 far = Some (90000101, 0) /\ shows (want1 (Date [far; -2] 2)) (rec0 TT 471623955 700) 1 /\ ~ in_set (Date [far; -2] 2) (rec0 TT 471623955 700).
Proof.
  exists (match Dates.mode_3 90000101 0 with Some s => s | None => 0 end). split; [vm_compute; reflexivity|]. split; [apply shows_by; vm_compute; reflexivity|].
  intros (_ & _ & _ & _ & _ & H & _). assert (H' : not_before 471623955 (match Dates.mode_3 90000101 0 with Some s => s | None => 0 end)) by exact H. destruct H' as (k & H1 & H2). vm_compute in H1. first [discriminate H1|injection H1 as <-; apply H2; reflexivity].
Qed.
Print Assumptions c57_extended_refuted.
(** Level 0 m in its two codes: not taken as the same. *)
Theorem c57_zero_refuted : kind 15728640 = kind 12001 /\ value 15728640 = value 12001 /\ shows (want1 (Ip 1 [15728640] 1)) (rec0 TT 471623955 12001) 0.
Proof. split; [vm_compute; reflexivity|]. split; [|apply shows_by; vm_compute; reflexivity]. unfold value. vm_compute (from_ip 15728640). vm_compute (from_ip 12001). reflexivity. Qed.
Print Assumptions c57_zero_refuted.
(** A refused call forgets the dates the set had: afterwards a record of any date is taken. *)
Theorem c58_refused_refuted : exists t t',
  runs start (want1 (Date [471623955] 1)) t /\ option_map fst (fstmatch_req (fun _ => false) t (Some (rec0 TT 471711395 700))) = Some 0 /\
  run_call t (Select (Given 0 0) (Nomvar [[84; 84]] 1)) = Some (-1, t') /\ option_map fst (fstmatch_req (fun _ => false) t' (Some (rec0 TT 471711395 700))) = Some 1.
Proof.
  assert (H : match play start (want1 (Date [471623955] 1)) with
              | Some t => option_map fst (fstmatch_req (fun _ => false) t (Some (rec0 TT 471711395 700))) = Some 0 /\
                  match run_call t (Select (Given 0 0) (Nomvar [[84; 84]] 1)) with Some (st, t') => st = -1 /\ option_map fst (fstmatch_req (fun _ => false) t' (Some (rec0 TT 471711395 700))) = Some 1 | None => False end
              | None => False end) by (vm_compute; repeat split).
  destruct (play start _) as [t|] eqn:E; [|contradiction]. apply play_runs in E. destruct H as [H1 H2]. destruct (run_call t _) as [[st t']|] eqn:R; [|contradiction]. destruct H2 as [-> H2]. exists t, t'. auto.
Qed.
Print Assumptions c58_refused_refuted.
(** A list of dates that is refused leaves the set in use without criteria: it takes every record. *)
Theorem c58_bad_dates_refuted : exists t t',
  runs start [] t /\ run_call t (Select (Given 0 1) (Date [471623955; 471711395; -2] 3)) = Some (-1, t') /\ option_map fst (fstmatch_req (fun _ => false) t' (Some (rec0 TT 471711395 700))) = Some 1 /\
  exists t'', run_call t' (Select (Given 1 0) (Nomvar [[84; 84]] 1)) = Some (0, t'') /\ option_map fst (fstmatch_req (fun _ => false) t'' (Some (rec0 TT 471711395 700))) = Some 1.
Proof.
  assert (H : match run_call start (Select (Given 0 1) (Date [471623955; 471711395; -2] 3)) with
              | Some (st, t') => st = -1 /\ option_map fst (fstmatch_req (fun _ => false) t' (Some (rec0 TT 471711395 700))) = Some 1 /\
                  match run_call t' (Select (Given 1 0) (Nomvar [[84; 84]] 1)) with Some (st, t'') => st = 0 /\ option_map fst (fstmatch_req (fun _ => false) t'' (Some (rec0 TT 471711395 700))) = Some 1 | None => False end
              | None => False end) by (vm_compute; repeat split).
  exists start. destruct (run_call start _) as [[st t']|] eqn:R; [|contradiction]. destruct H as (-> & H1 & H2). exists t'. split; [constructor|]. split; [reflexivity|]. split; [exact H1|].
  destruct (run_call t' _) as [[st t'']|] eqn:R2; [|contradiction]. destruct H2 as [-> H2]. exists t''. auto.
Qed.
Print Assumptions c58_bad_dates_refuted.
