(** c_xdfloc2 on a file that is not linked: position, result, effect. *)
From Coq Require Import ZArith List Lia Bool.
From Verif Require Import Bits Handles HandlesFacts WaFile Xdf XdfLib XdfInv XdfDel XdfPut XdfPut2 XdfPut3 XdfPut4 XdfSearch XdfAbs.
Import ListNotations.
Open Scope Z_scope.

(** Used slots in directory order. *)
Fixpoint slots_from (k : nat) (ns : list nat) : list (nat * nat) :=
  match ns with [] => [] | n :: ns' => map (pair k) (seq 0 n) ++ slots_from (S k) ns' end.
Definition slots (f : fte) : list (nat * nat) := slots_from 0 (nents (f_pages f)).

(** Used slots from (k, r) on. *)
Definition after (ns : list nat) (k r : nat) : list (nat * nat) :=
  match skipn k ns with [] => [] | n :: ns' => map (pair k) (seq r (n - r)) ++ slots_from (S k) ns' end.

Lemma after_start ns : after ns 0 0 = slots_from 0 ns.
Proof. unfold after. rewrite skipn_O. destruct ns; [reflexivity|]. rewrite Nat.sub_0_r. reflexivity. Qed.

Lemma after_next ns k r n : nth_error ns k = Some n -> (n <= r)%nat -> after ns k r = after ns (S k) 0.
Proof.
  intros N R. unfold after. assert (E : skipn k ns = n :: skipn (S k) ns).
  { clear R. revert ns N. induction k; intros [|x ns] N; try discriminate; [injection N as ->; reflexivity|]. cbn [skipn]. apply IHk. exact N. }
  rewrite E. replace (n - r)%nat with 0%nat by lia. cbn [seq map app]. destruct (skipn (S k) ns) as [|m ns'] eqn:E2; [reflexivity|].
  rewrite Nat.sub_0_r. reflexivity.
Qed.

Lemma after_cons ns k r n : nth_error ns k = Some n -> (r < n)%nat -> after ns k r = (k, r) :: after ns k (S r).
Proof.
  intros N R. unfold after. assert (E : skipn k ns = n :: skipn (S k) ns).
  { clear R. revert ns N. induction k; intros [|x ns] N; try discriminate; [injection N as ->; reflexivity|]. cbn [skipn]. apply IHk. exact N. }
  rewrite E. replace (n - r)%nat with (S (n - S r)) by lia. reflexivity.
Qed.

Lemma after_none ns k r : (length ns <= k)%nat -> after ns k r = [].
Proof. intros. unfold after. rewrite skipn_all2 by assumption. reflexivity. Qed.

Definition hit (filt : Z -> bool) (i : nat) (f : fte) (s : nat * nat) : bool :=
  match ent f (fst s) (snd s) with
  | Some e => entry_matches filt i f (Z.of_nat (fst s)) (Z.of_nat (snd s)) e
  | None => false
  end.

Definition hnd (i : nat) (s : nat * nat) : Z := make_rnd_handle (Z.of_nat (fst s)) (Z.of_nat (snd s)) (Z.of_nat i).

Lemma scan_page mt ents n r : (n <= length ents)%nat ->
  scan mt (skipn r (firstn n ents)) (Z.of_nat r) =
  option_map Z.of_nat (find (fun x => match nth_error ents x with Some e => mt (Z.of_nat x) e | None => false end) (seq r (n - r))).
Proof.
  intros L. remember (n - r)%nat as m eqn:M. revert r M. induction m; intros r M.
  - rewrite skipn_all2 by (rewrite firstn_length; lia). reflexivity.
  - destruct (nth_error ents r) as [e|] eqn:E. 2: { apply nth_error_None in E. lia. }
    assert (S : skipn r (firstn n ents) = e :: skipn (S r) (firstn n ents)).
    { assert (E' : nth_error (firstn n ents) r = Some e).
      { rewrite <- E. rewrite <- (firstn_skipn n ents) at 2. rewrite nth_error_app1 by (rewrite firstn_length; lia). reflexivity. }
      clear - E'. revert E'. generalize (firstn n ents). induction r; intros [|x l] E'; try discriminate; [injection E' as ->; reflexivity|]. cbn [skipn]. apply IHr. exact E'. }
    rewrite S. cbn [scan seq find]. rewrite E. destruct (mt (Z.of_nat r) e); [reflexivity|].
    replace (Z.of_nat r + 1) with (Z.of_nat (Datatypes.S r)) by lia. rewrite IHm by lia. reflexivity.
Qed.

Lemma find_map {A B} (g : A -> B) (P : B -> bool) l : find P (map g l) = option_map g (find (fun x => P (g x)) l).
Proof. induction l; [reflexivity|]. cbn. destruct (P (g a)); [reflexivity|exact IHl]. Qed.
Lemma find_app {A} (P : A -> bool) l l' : find P (l ++ l') = match find P l with Some x => Some x | None => find P l' end.
Proof. induction l; [reflexivity|]. cbn. destruct (P a); [reflexivity|exact IHl]. Qed.
Lemma find_ext {A} (P Q : A -> bool) l : (forall x, In x l -> P x = Q x) -> find P l = find Q l.
Proof. induction l; intros H; [reflexivity|]. cbn. rewrite H by (left; reflexivity). destruct (Q a); [reflexivity|]. apply IHl. intros. apply H. right. assumption. Qed.

Definition found_cur (i : nat) (f : fte) (o : option (nat * nat)) : Z * cursor :=
  match o with
  | Some (k, r) => (hnd i (k, r), mkcur (Some (i, k)) (Some ((i, k), S r)) (Z.of_nat k) (Z.of_nat (S r)))
  | None => let np := length (f_pages f) in
            (ERR_NOT_FOUND, mkcur None (Some ((i, (np - 1)%nat), nth (np - 1) (nents (f_pages f)) 0%nat)) (Z.of_nat np - 1) 0)
  end.

Lemma match_loop_own filt w i f n : w_file w i = Some f -> finv f -> forall k r,
  (k < length (f_pages f))%nat -> (length (f_pages f) - k <= n)%nat ->
  match_loop n filt w i f (i, k) (Z.of_nat k) (Z.of_nat r) = Some (found_cur i f (find (hit filt i f) (after (nents (f_pages f)) k r))).
Proof.
  intros F [G I]. induction n; intros k r K N; [lia|].
  destruct (nth_error (f_pages f) k) as [p|] eqn:P. 2: { apply nth_error_None in P. lia. }
  cbn [match_loop]. rewrite (get_page_own _ _ _ _ F), P. cbn [bind fst]. rewrite F. cbn [bind]. rewrite Nat.eqb_refl. cbn [negb orb].
  pose proof (nent_bound _ _ _ G P) as NB. rewrite (proj2 (Z.ltb_ge _ _)) by (unfold EPP; lia).
  destruct (page_nth_ok _ _ _ _ G P) as (_ & _ & LE & _). unfold EPP in LE.
  rewrite Nat2Z.id, scan_page by lia. pose proof (nents_nth _ _ _ P) as NN.
  assert (SK : skipn k (nents (f_pages f)) = Z.to_nat (p_nent p) :: skipn (S k) (nents (f_pages f))).
  { revert NN. generalize (nents (f_pages f)). clear. induction k; intros [|x ns] N; try discriminate; [injection N as ->; reflexivity|]. cbn [skipn]. apply IHk. exact N. }
  unfold after. rewrite SK. rewrite find_app, find_map.
  rewrite (find_ext (fun x => match nth_error (p_ents p) x with Some e => entry_matches filt i f (Z.of_nat k) (Z.of_nat x) e | None => false end)
                    (fun x => hit filt i f (k, x))).
  2: { intros x Hx. apply in_seq in Hx. unfold hit. cbn [fst snd]. destruct (nth_error (p_ents p) x) as [e|] eqn:E.
       - rewrite (ent_some f k x p e (conj G I) P ltac:(lia) E). reflexivity.
       - apply nth_error_None in E. lia. }
  destruct (find (fun x => hit filt i f (k, x)) (seq r (Z.to_nat (p_nent p) - r))) as [x|] eqn:FD.
  - cbn [option_map found_cur]. unfold hnd. cbn [fst snd].
    replace (Z.of_nat x + 1) with (Z.of_nat (S x)) by lia. rewrite Nat2Z.id. reflexivity.
  - cbn [option_map]. unfold next_page. cbn [fst snd]. rewrite F. destruct (Nat.ltb_spec (S k) (length (f_pages f))) as [LT|GE].
    + replace (Z.of_nat k + 1) with (Z.of_nat (S k)) by lia. change 0 with (Z.of_nat 0). rewrite IHn by lia.
      f_equal. f_equal. unfold after. destruct (skipn (S k) (nents (f_pages f))) as [|m ns'] eqn:E2; [reflexivity|].
      rewrite Nat.sub_0_r. reflexivity.
    + rewrite (g_tail _ _ G). assert (length (f_pages f) = S k) as LK by lia.
      replace (skipn (S k) (nents (f_pages f))) with (@nil nat). 2: { symmetry. apply skipn_all2. unfold nents. rewrite map_length. lia. }
      cbn [slots_from find found_cur]. cbv zeta. rewrite LK. replace (S k - 1)%nat with k by lia. rewrite (nth_error_nth _ _ _ NN).
      do 4 f_equal; lia.
Qed.

Lemma finv_cur f c : finv f -> finv (f_setcur f c).
Proof. intros H. exact (proj1 (quiet_cur f c H)). Qed.
Lemma finv_tgt f t m v : finv f -> finv (f_settgt f t m v).
Proof. intros [G I]. split; [|exact I]. apply (ginv_tgt _ _ t m v G). Qed.

Lemma quiet_trans f g h : quiet f g -> quiet g h -> quiet f h.
Proof.
  intros (A1 & A2 & A3 & A4 & A5 & A6 & A7) (B1 & B2 & B3 & B4 & B5 & B6 & B7). unfold quiet.
  split; [exact B1|]. split; [eapply stat_trans; eassumption|]. split; [intros; rewrite B3; apply A3|]. repeat split; congruence.
Qed.

Lemma quiet_tgt f t m v : finv f -> length t = length (f_target f) -> length m = length (f_cmask f) -> quiet f (f_settgt f t m v).
Proof.
  intros FI L1 L2. unfold quiet. split; [apply finv_tgt; exact FI|]. split; [|auto 10].
  unfold stat. repeat (split; [reflexivity|]). split; [|apply hkeep_refl]. cbn [f_ilen f_smask f_target f_cmask f_settgt]. congruence.
Qed.

(** The search target after the call. *)
Definition new_mask (f : fte) (m : list Z) : list Z :=
  map (fun k => if (k <? 2 * f_plen f)%nat then Z.land (nth k m 0) (nth k (f_smask f) 0) else nth k m 0) (seq 0 (length m)).

Definition mask_of (junk : nat -> Z) (primk : list Z) (nprim : Z) (msk : option (list Z)) : list Z :=
  match msk with
  | Some m => m
  | None => match primk with
            | k :: _ => (if k =? 2 ^ 32 - 1 then 0 else 2 ^ 32 - 1) :: map (fun j => w32 (junk j)) (seq 1 (Z.to_nat nprim - 1))
            | [] => []
            end
  end.

Definition aimed (junk : nat -> Z) (f : fte) (primk : list Z) (nprim : Z) (msk : option (list Z)) (f1 : fte) : Prop :=
  if nprim =? 0 then f1 = f
  else exists t m, kp_write (f_kp f) (f_hdr f) (f_target f) primk (f_cmask f) (mask_of junk primk nprim msk) = Some (t, m) /\
                   f1 = f_settgt f t (new_mask f m) true.

Lemma aimed_quiet junk f primk nprim msk f1 : finv f -> aimed junk f primk nprim msk f1 -> quiet f f1.
Proof.
  intros FI. unfold aimed. destruct (nprim =? 0); [intros ->; apply quiet_refl; exact FI|].
  intros (t & m & K & ->). destruct FI as [G I]. pose proof (g_kp _ _ G) as [KP _]. destruct (KP _ _ _ _ _ _ _ K) as (A & B & _).
  apply quiet_tgt; [split; assumption|exact A|]. unfold new_mask. rewrite map_length, seq_length. exact B.
Qed.

Lemma setf_setf_others w i a b : others w (setf (setf w i a) i b) i.
Proof. apply others_setf, others_setf, others_refl. Qed.

Lemma setf_keep_file w i f j g : w_file w j = Some g -> j <> i -> w_file (setf w i f) j = Some g.
Proof. intros. rewrite setf_other; assumption. Qed.

(** Any search only moves the cursor and changes the target. *)
Definition moved (f f' : fte) : Prop :=
  quiet f f' /\ exists t m v c, f' = f_setcur (f_settgt f t m v) c.

Lemma moved_refl f : finv f -> moved f f.
Proof. intros FI. split; [apply quiet_refl; exact FI|]. exists (f_target f), (f_cmask f), (f_vt f), (f_cur f). destruct f; reflexivity. Qed.
Lemma moved_cur f f1 c : moved f f1 -> moved f (f_setcur f1 c).
Proof.
  intros (Q & t & m & v & c0 & ->). split; [eapply quiet_trans; [exact Q|apply quiet_cur; apply Q]|]. exists t, m, v, c. reflexivity.
Qed.

Lemma next_match_moved n filt w i f0 f c w' : w_file w i = Some f -> moved f0 f -> next_match n filt w i = Some (c, w') ->
  others w w' i /\ exists f', w_file w' i = Some f' /\ moved f0 f'.
Proof.
  intros F MV. unfold next_match. rewrite F. cbn [bind].
  assert (SAME : forall x : Z, Some (x, w) = Some (c, w') -> others w w' i /\ exists f', w_file w' i = Some f' /\ moved f0 f').
  { intros x H. injection H as _ <-. split; [apply others_refl|]. exists f. auto. }
  destruct (c_pg (f_cur f)) as [pg|]; [|apply SAME]. destruct (c_ent (f_cur f)) as [[pg' k]|]; [|apply SAME].
  destruct (negb _); [discriminate|]. destruct (negb _); [apply SAME|].
  destruct (match_loop _ _ _ _ _ _ _ _) as [[a b]|]; [|discriminate]. cbn [bind fst snd]. intros H. injection H as _ <-.
  split; [apply others_setf, others_refl|]. rewrite setf_same. eexists. split; [reflexivity|]. apply moved_cur. exact MV.
Qed.

Lemma xdfloc2_moved n junk filt w iun handle primk nprim msk c w' i f :
  file_index w iun = Some i -> w_file w i = Some f -> finv f ->
  xdfloc2 n junk filt w iun handle primk nprim msk = Some (c, w') ->
  others w w' i /\ exists f', w_file w' i = Some f' /\ moved f f'.
Proof.
  intros FX F FI. unfold xdfloc2. rewrite FX, F. cbn [bind]. cbv zeta. fold (mask_of junk primk nprim msk).
  assert (SAME : forall x : Z, Some (x, w) = Some (c, w') -> others w w' i /\ exists f', w_file w' i = Some f' /\ moved f f').
  { intros x H. injection H as _ <-. split; [apply others_refl|]. exists f. split; [exact F|]. apply moved_refl. exact FI. }
  destruct (_ && _); [apply SAME|]. destruct (handle <? -1); [apply SAME|]. destruct (_ && _); [apply SAME|].
  match goal with |- bind ?t _ = _ -> _ => destruct t as [f1|] eqn:T; [|discriminate] end. cbn [bind].
  assert (Q1 : moved f f1).
  { destruct (nprim =? 0) eqn:N0; [injection T as <-; apply moved_refl; exact FI|].
    destruct (kp_write _ _ _ _ _ _) as [[t m]|] eqn:K; [|discriminate]. cbn [bind fst snd] in T. injection T as <-. fold (new_mask f m).
    split.
    - apply (aimed_quiet junk f primk nprim msk); [exact FI|]. unfold aimed. rewrite N0. exists t, m. auto.
    - exists t, (new_mask f m), true, (f_cur f). destruct f; reflexivity. }
  match goal with |- bind ?t _ = _ -> _ => destruct t as [[x|cu1]|] eqn:T2; [| |discriminate] end; cbn [bind].
  - intros H. injection H as _ <-. split; [apply others_setf, others_refl|]. rewrite setf_same. eexists. split; [reflexivity|]. apply moved_cur. exact Q1.
  - set (f2 := f_setcur f1 cu1). assert (Q2 : moved f f2) by (apply moved_cur; exact Q1).
    destruct (negb (f_vt f1)).
    + intros H. injection H as _ <-. split; [apply others_setf, others_refl|]. rewrite setf_same. exists f2. auto.
    + intros H. apply (next_match_moved _ _ _ _ f f2) in H; [|apply setf_same|apply Q2].
      destruct H as (O & f' & W & Q). split.
      * destruct O as [O1 O2]. split; [exact O1|]. intros j J. rewrite O2 by exact J. apply setf_other. exact J.
      * exists f'. split; [exact W|exact Q].
Qed.

(** Where a search starts. *)
Inductive starts (w : world) (i : nat) (f : fte) : Z -> nat -> nat -> Prop :=
| start_0 : starts w i f 0 0 0
| start_h h : 0 < h -> hidx w h = i -> (hpage h < length (f_pages f))%nat -> starts w i f h (hpage h) (S (hrec h))
| start_next k r : (k < length (f_pages f))%nat -> f_cur f = mkcur (Some (i, k)) (Some ((i, k), r)) (Z.of_nat k) (Z.of_nat r) -> starts w i f (-1) k r.

Lemma xdfloc2_spec n junk filt w iun handle primk nprim msk i f f1 k r :
  file_index w iun = Some i -> w_file w i = Some f -> finv f ->
  aimed junk f primk nprim msk f1 -> f_vt f1 = true -> starts w i f handle k r -> (length (f_pages f) <= n)%nat ->
  let fc := found_cur i f (find (hit filt i f1) (after (nents (f_pages f)) k r)) in
  exists w', xdfloc2 n junk filt w iun handle primk nprim msk = Some (fst fc, w') /\ others w w' i /\ w_file w' i = Some (f_setcur f1 (snd fc)).
Proof.
  intros FX F FI AM VT ST FUEL fc.
  assert (P1 : f_pages f1 = f_pages f). { unfold aimed in AM. destruct (nprim =? 0); [congruence|]. destruct AM as (t & m & _ & ->). reflexivity. }
  assert (FI1 : finv f1) by (apply (aimed_quiet _ _ _ _ _ _ FI AM)).
  assert (NP : (1 <= length (f_pages f))%nat) by (destruct FI as [G _]; apply (g_np _ _ G)).
  assert (NM : forall k r, (k < length (f_pages f))%nat -> exists w',
     next_match n filt (setf w i (Some (f_setcur f1 (mkcur (Some (i, k)) (Some ((i, k), r)) (Z.of_nat k) (Z.of_nat r))))) i =
       Some (fst (found_cur i f (find (hit filt i f1) (after (nents (f_pages f)) k r))), w') /\ others w w' i /\
       w_file w' i = Some (f_setcur f1 (snd (found_cur i f (find (hit filt i f1) (after (nents (f_pages f)) k r)))))).
  { clear ST fc k r. intros k r K. unfold next_match. rewrite setf_same. cbn [bind f_cur f_setcur c_pg c_ent fst snd]. rewrite !Nat.eqb_refl. cbn [andb negb c_rec c_no].
    rewrite Z.eqb_refl. cbn [negb].
    set (f2 := f_setcur f1 _). set (w2 := setf w i (Some f2)).
    rewrite (match_loop_own filt w2 i f2 n (setf_same _ _ _) (finv_cur _ _ FI1) k r); [|change (f_pages f2) with (f_pages f1); rewrite P1; assumption|change (f_pages f2) with (f_pages f1); rewrite P1; lia].
    cbn [bind]. change (f_pages f2) with (f_pages f1). rewrite P1.
    assert (FE : found_cur i f2 = found_cur i f) by (unfold found_cur; change (f_pages f2) with (f_pages f1); rewrite P1; reflexivity).
    rewrite FE. change (hit filt i f2) with (hit filt i f1).
    eexists. split; [reflexivity|]. split; [apply others_setf, others_setf, others_refl|]. rewrite setf_same. reflexivity. }
  unfold xdfloc2. rewrite FX, F. cbn [bind]. cbv zeta. fold (mask_of junk primk nprim msk).
  assert (TG : (if nprim =? 0 then Some f else bind (kp_write (f_kp f) (f_hdr f) (f_target f) primk (f_cmask f) (mask_of junk primk nprim msk))
     (fun tm => Some (f_settgt f (fst tm) (map (fun k => if (k <? 2 * f_plen f)%nat then Z.land (nth k (snd tm) 0) (nth k (f_smask f) 0) else nth k (snd tm) 0) (seq 0 (length (snd tm)))) true))) = Some f1).
  { unfold aimed in AM. destruct (nprim =? 0); [congruence|]. destruct AM as (t & m & K & ->). rewrite K. reflexivity. }
  inversion ST as [HE KE RE|h H0 HI HP HE KE RE|k' r' KP CU HE KE RE]; subst.
  - cbn [Z.ltb Z.compare andb Z.eqb negb]. rewrite TG. cbn [bind].
    rewrite (proj2 (Z.ltb_lt _ _)) by lia. cbn [bind]. rewrite VT. cbn [negb].
    apply (NM 0%nat 0%nat). lia.
  - rewrite (proj2 (Z.ltb_lt 0 handle)) by assumption. rewrite Nat.eqb_refl. cbn [negb andb].
    rewrite (proj2 (Z.ltb_ge handle (-1))) by lia. rewrite (proj2 (Z.eqb_neq handle (-1))) by lia. cbn [andb].
    rewrite (proj2 (Z.eqb_neq handle 0)) by lia. rewrite TG. cbn [bind].
    replace (Z.of_nat (hpage handle) <? Z.of_nat (length (f_pages f))) with true by (symmetry; apply Z.ltb_lt; lia).
    replace (Z.of_nat (hrec handle) + 1) with (Z.of_nat (S (hrec handle))) by lia. rewrite !Nat2Z.id.
    destruct (Z.eqb_spec (Z.of_nat (hpage handle)) (c_no (f_cur f))) as [EQ|NE]; cbn [negb bind]; rewrite VT; cbn [negb].
    + rewrite <- EQ. apply NM. exact HP.
    + apply NM. exact HP.
  - change (0 <? -1) with false. change (-1 <? -1) with false. change (-1 =? -1) with true. cbn [andb]. rewrite CU. cbn [c_ent c_no c_pg c_rec].
    rewrite (proj2 (Z.eqb_neq (Z.of_nat k) (-1))) by lia. change (-1 =? 0) with false. cbv iota. rewrite TG. cbn [bind]. rewrite VT. cbn [negb].
    apply NM. exact KP.
Qed.
