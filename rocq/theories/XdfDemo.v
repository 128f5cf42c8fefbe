(** Running concrete histories, to show that the hypotheses of the theorems
    about XDF files are met. *)
From Coq Require Import ZArith List Lia Bool.
From Verif Require Import Bits Handles WaFile Xdf XdfLib XdfSearch XdfOpen XdfHist XdfInv XdfPut2 XdfPut4 XdfAbs XdfCreate XdfSys XdfSys2 XdfReopen XdfSpec XdfThm XdfKeys XdfKeysFacts.
Import ListNotations.
Open Scope Z_scope.

(** Conditions of use as a computation; the key functions are std_kp or gen_kp. *)
Definition buf_okb (b : buffer) : bool :=
  forallb (fun x => (0 <=? x) && (x <? 2 ^ 32)) (b_data b) && (2 <=? b_nbits b / 32) && (b_nbits b / 32 <? 2 ^ 25) &&
  (b_nbits b / 32 <=? Z.of_nat (length (b_data b))) && (1 <=? w_idtyp (nth 0 (b_data b) 0)) && (w_idtyp (nth 0 (b_data b) 0) <=? 125).
Definition real_handleb (f : fte) (h : Z) : bool :=
  match nth_error (f_pages f) (hpage h) with Some p => negb (Z.of_nat (hrec h) =? p_nent p) | None => true end.
Definition keys_okb (pri aux : list (Z * Z)) : bool :=
  (length pri <=? 100)%nat && (length aux <=? 100)%nat && (sum_lcle pri <=? 960).
Definition ok_opb (s : sys) (o : op) : bool :=
  match o with
  | OpCreate _ _ _ _ _ pri aux _ => keys_okb pri aux
  | OpOpen _ p _ _ std _ mode => (0 <=? mode) && (mode <=? 4) &&
      (negb std || match s_fs s p with Shut d => (nth 3 d 0 =? STDR) || (nth 3 d 0 =? STDS) | _ => true end)
  | OpPut _ iun handle buf => buf_okb buf &&
      match file_index (s_w s) iun with
      | Some i => match w_file (s_w s) i with
                  | Some f => (fsize f + b_nbits buf / 32 + page_wlen (f_plen f) + 1 <? 2 ^ 31) && ((handle =? 0) || real_handleb f (Z.abs handle))
                  | None => true end
      | None => true end
  | OpDel h => match w_file (s_w s) (hidx (s_w s) h) with Some f => real_handleb f h | None => true end
  | _ => true
  end.
Definition std_op (o : op) : Prop :=
  match o with OpCreate _ _ _ _ kp _ _ _ | OpOpen _ _ _ _ _ kp _ => kp = std_kp \/ kp = gen_kp | _ => True end.

Lemma real_handleb_ok f h : real_handleb f h = true -> real_handle f h.
Proof. unfold real_handleb, real_handle. intros H p P. rewrite P in H. apply negb_true_iff in H. apply Z.eqb_neq. exact H. Qed.
Lemma buf_okb_ok b : buf_okb b = true -> buf_ok b.
Proof.
  unfold buf_okb, buf_ok. intros H. repeat (apply andb_prop in H; let H' := fresh in destruct H as [H H']).
  repeat match goal with X : (_ <=? _) = true |- _ => apply Z.leb_le in X | X : (_ <? _) = true |- _ => apply Z.ltb_lt in X end.
  split; [|lia]. unfold all_words. rewrite forallb_forall in H. apply Forall_forall. intros x X. specialize (H x X).
  apply andb_prop in H. destruct H as [A B]. apply Z.leb_le in A. apply Z.ltb_lt in B. split; assumption.
Qed.
Lemma two_kp_ok kp : kp = std_kp \/ kp = gen_kp -> kp_ok kp.
Proof. intros [->| ->]; [apply std_kp_ok|apply gen_kp_ok]. Qed.
Lemma ok_opb_ok s o : std_op o -> ok_opb s o = true -> ok_op s o.
Proof.
  destruct o; cbn [std_op ok_opb ok_op].
  - intros KP H. split; [|apply two_kp_ok; exact KP]. unfold keys_okb in H. repeat (apply andb_prop in H; let H' := fresh in destruct H as [H H']).
    apply Nat.leb_le in H, H1. apply Z.leb_le in H0. unfold keys_ok. auto.
  - intros KP H. repeat (apply andb_prop in H; let H' := fresh in destruct H as [H H']). apply Z.leb_le in H, H1.
    split; [apply two_kp_ok; exact KP|]. split; [lia|]. intros -> d D. rewrite D in H0. cbn [negb orb] in H0. apply orb_prop in H0. rewrite !Z.eqb_eq in H0. exact H0.
  - intros _ H. apply andb_prop in H. destruct H as [A B]. split; [apply buf_okb_ok; exact A|]. intros i f FX F. rewrite FX, F in B.
    apply andb_prop in B. destruct B as [B C]. apply Z.ltb_lt in B. split; [exact B|]. intros HZ _. apply real_handleb_ok. rewrite (proj2 (Z.eqb_neq _ _) HZ) in C. exact C.
  - intros _ H f F. rewrite F in H. apply real_handleb_ok. exact H.
  - trivial.
  - trivial.
  - trivial.
Qed.

Fixpoint run (l : list op) (s : sys) : option (list Z * sys) :=
  match l with
  | [] => Some ([], s)
  | o :: l' => if ok_opb s o then match step o s with
               | Some (c, s1) => match run l' s1 with Some (cs, s2) => Some (c :: cs, s2) | None => None end
               | None => None end
               else None
  end.

Lemma run_hist l : forall s cs s', Forall std_op l -> run l s = Some (cs, s') -> hist any s (combine l cs) s'.
Proof.
  induction l as [|o l IH]; intros s cs s' F H; cbn [run] in H.
  - injection H as <- <-. constructor.
  - inversion F; subst. destruct (ok_opb s o) eqn:OK; [|discriminate]. destruct (step o s) as [[c s1]|] eqn:ST; [|discriminate].
    destruct (run l s1) as [[cs1 s2]|] eqn:R; [|discriminate]. injection H as <- <-. cbn [combine]. econstructor.
    + apply ok_opb_ok; assumption.
    + exact Logic.I.
    + exact ST.
    + apply IH; assumption.
Qed.

(** The state and codes of a run; [init_sys] when it is not possible. *)
Definition final (l : list op) : sys := match run l init_sys with Some (_, s) => s | None => init_sys end.
Definition codes (l : list op) : list Z := match run l init_sys with Some (cs, _) => cs | None => [] end.
Lemma final_reach l : Forall std_op l -> reach (final l).
Proof.
  intros F. unfold final, reach. destruct (run l init_sys) as [[cs s]|] eqn:R.
  - exists (combine l cs). apply run_hist; assumption.
  - exists []. constructor.
Qed.

Definition zeros : nat -> Z := fun _ => 0.
(** Two keys of 32 bits. *)
Definition demo_keys : list (Z * Z) := [(1, 31 * 2 ^ 19 + 31 * 2 ^ 14); (2, 63 * 2 ^ 19 + 31 * 2 ^ 14)].
Definition demo_create (p : nat) (iun : Z) : op := OpCreate zeros p iun false std_kp demo_keys [] 5.
Definition demo_buf (iun k1 k2 d1 d2 : Z) : buffer := mkbuf 40 192 0 0 iun 0 ([2 ^ 24; 0; k1; k2; d1; d2] ++ repeat 7 34).
Definition demo_put (iun k1 k2 d1 d2 : Z) : op := OpPut zeros iun 0 (demo_buf iun k1 k2 d1 d2).
Definition demo_all (iun h : Z) : op := OpLoc zeros (fun _ => true) iun h [0; 0] 2 (Some [0; 0]).
Definition demo_next (iun : Z) : op := OpLoc zeros (fun _ => true) iun (-1) [] 0 None.
