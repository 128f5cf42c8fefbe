(** Cyclic redundancy checks: property C64. *)
From Coq Require Import ZArith List Lia Bool.
From Verif Require Import Crc CrcSpec CrcFacts.
Import ListNotations.
Open Scope Z_scope.

Definition turn (c : check) : Z -> Z -> Z := match c with CRC16 => turn16 | CRC24 => turn24 | CRC32 => turn32 end.
Lemma turn_ok c x v : 0 <= x < 2 ^ width c -> 0 <= v < 256 -> turn c x v = one_byte c x v.
Proof.
  intros X V. destruct c; cbn [turn one_byte width] in *.
  - apply (right_turn 0xA001 table16 16); [lia|vm_compute; reflexivity|vm_compute; reflexivity|exact X|exact V].
  - apply (left_turn 0x864CFB table24 24); [lia|vm_compute; reflexivity|vm_compute; reflexivity|exact X|exact V].
  - apply (right_turn 0xEDB88320 table32 32); [lia|vm_compute; reflexivity|vm_compute; reflexivity|exact X|exact V].
Qed.
Lemma fold_range c m : forall x, 0 <= x < 2 ^ width c -> bytes m -> 0 <= fold_left (one_byte c) m x < 2 ^ width c.
Proof. induction m as [|v m IH]; intros x X B; [exact X|]. apply Forall_cons_iff in B as [V B]. cbn [fold_left]. apply IH; [apply one_byte_range; assumption|exact B]. Qed.
Lemma loop_ok c m : forall x, 0 <= x < 2 ^ width c -> bytes m -> update_loop (turn c) (length m) x m = Some (fold_left (one_byte c) m x).
Proof. induction m as [|v m IH]; intros x X B; [reflexivity|]. apply Forall_cons_iff in B as [V B]. cbn [length update_loop fold_left]. rewrite turn_ok by assumption. apply IH; [apply one_byte_range; assumption|exact B]. Qed.
Lemma le_loop_ok c data mask m : forall i x, 0 <= x < 2 ^ width c -> bytes m -> 0 <= i ->
  (forall k v, nth_error m k = Some v -> nth_error data (Z.to_nat (Z.lxor (i + Z.of_nat k) mask)) = Some v) -> update_le_loop (turn c) (length m) i x data mask = Some (fold_left (one_byte c) m x).
Proof.
  induction m as [|v m IH]; intros i x X B I D; [reflexivity|]. apply Forall_cons_iff in B as [V B]. cbn [length update_le_loop fold_left]. pose proof (D O v eq_refl) as D0. rewrite Z.add_0_r in D0. rewrite D0, turn_ok by assumption.
  apply IH; [apply one_byte_range; assumption|exact B|lia|]. intros k u K. specialize (D (S k) u K). rewrite Nat2Z.inj_succ in D. replace (i + 1 + Z.of_nat k) with (i + Z.succ (Z.of_nat k)) by lia. exact D.
Qed.
(** Reversed words *)
Lemma lxor_index size q r : In size [1; 2; 4; 8] -> 0 <= q -> 0 <= r < size -> Z.lxor (q * size + r) (size - 1) = q * size + (size - 1 - r).
Proof.
  intros I Q R. assert (E : exists k, 0 <= k /\ size = 2 ^ k) by (cbn [In] in I; destruct I as [<-|[<-|[<-|[<-|[]]]]]; [exists 0|exists 1|exists 2|exists 3]; split; (lia || reflexivity)).
  destruct E as (k & K & ->). assert (A : forall s, 0 <= s < 2 ^ k -> q * 2 ^ k + s = Z.lxor s (q * 2 ^ k)).
  { intros s S. rewrite (split_low (q * 2 ^ k + s) k) by lia. rewrite Z.shiftr_div_pow2, Z.add_comm, Z.mod_add, Z.div_add, Z.mod_small, Z.div_small by lia. reflexivity. }
  rewrite !A by lia. rewrite Z.lxor_assoc, (Z.lxor_comm _ (2 ^ k - 1)), <- Z.lxor_assoc. f_equal.
  cbn [In] in I. remember (2 ^ k) as size. destruct I as [<-|[<-|[<-|[<-|[]]]]]; [assert (C : r = 0) by lia; subst r; reflexivity|assert (C : r = 0 \/ r = 1) by lia; destruct C; subst r; reflexivity|assert (C : r = 0 \/ r = 1 \/ r = 2 \/ r = 3) by lia; destruct C as [|[|[|]]]; subst r; reflexivity|].
  assert (C : r = 0 \/ r = 1 \/ r = 2 \/ r = 3 \/ r = 4 \/ r = 5 \/ r = 6 \/ r = 7) by lia. destruct C as [|[|[|[|[|[|[|]]]]]]]; subst r; reflexivity.
Qed.
Lemma nth_rev (w : list Z) r : (r < length w)%nat -> nth_error (rev w) (length w - 1 - r) = nth_error w r.
Proof.
  intros R. rewrite (nth_error_nth' w 0 R), (nth_error_nth' (rev w) 0) by (rewrite rev_length; lia). f_equal. rewrite rev_nth by lia. f_equal. lia.
Qed.
Lemma concat_rev size ws : (0 < size)%nat -> Forall (fun w : list Z => length w = size) ws ->
  forall q r v, (r < size)%nat -> nth_error (concat ws) (q * size + r) = Some v -> nth_error (concat (map (@rev Z) ws)) (q * size + (size - 1 - r)) = Some v.
Proof.
  intros SZ. induction ws as [|w ws IH]; intros F q r v R E; [cbn [concat] in E; destruct (q * size + r)%nat; discriminate|]. apply Forall_cons_iff in F as [L F]. cbn [map concat] in *. destruct q as [|q].
  - cbn [Nat.mul Nat.add] in *. rewrite nth_error_app1 in * by (rewrite ?rev_length; lia). rewrite <- L, nth_rev by lia. exact E.
  - rewrite nth_error_app2 in * by (rewrite ?rev_length; lia). rewrite rev_length, L in *. replace (S q * size + r - size)%nat with (q * size + r)%nat in E by lia. replace (S q * size + (size - 1 - r) - size)%nat with (q * size + (size - 1 - r))%nat by lia. apply IH; assumption.
Qed.
Lemma concat_length size (ws : list (list Z)) : Forall (fun w => Z.of_nat (length w) = size) ws -> Z.of_nat (length (concat ws)) = size * Z.of_nat (length ws).
Proof. induction ws as [|w ws IH]; intros F; [cbn; lia|]. apply Forall_cons_iff in F as [L F]. cbn [concat length]. rewrite app_length. specialize (IH F). lia. Qed.
Lemma words_flat size ws : words size ws -> bytes (concat ws) /\ Z.of_nat (length (concat ws)) = size * Z.of_nat (length ws) /\ 0 < size.
Proof.
  intros (I & F & _). split; [|split].
  - clear I. unfold bytes. induction F as [|w ws [_ B] F IH]; [constructor|]. cbn [concat]. apply Forall_app. split; assumption.
  - apply concat_length. revert F. apply Forall_impl. intros w [H _]. exact H.
  - cbn [In] in I. lia.
Qed.
Lemma update_ok c le size ws x : words size ws -> 0 <= x < 2 ^ width c ->
  update_le (turn c) x (memory le ws) (Z.to_nat (size * Z.of_nat (length ws))) (if le && (1 <? size) then size - 1 else 0) = Some (fold_left (one_byte c) (concat ws) x).
Proof.
  intros W X. destruct (words_flat _ _ W) as (B & L & P). rewrite <- L, Nat2Z.id. unfold update_le, memory. destruct W as (I & F & _). destruct le; cbn [andb].
  - destruct (Z.ltb_spec 1 size) as [S1|S1].
    + destruct (Z.eqb_spec (size - 1) 0); [lia|]. apply le_loop_ok; [exact X|exact B|lia|]. intros k v E. cbn [Z.add].
      assert (D : Z.of_nat k = Z.of_nat k / size * size + Z.of_nat k mod size) by (rewrite (Z.div_mod (Z.of_nat k) size) at 1 by lia; lia). pose proof (Z.mod_pos_bound (Z.of_nat k) size P) as M. pose proof (Z.div_pos (Z.of_nat k) size ltac:(lia) P) as Q.
      set (q := Z.of_nat k / size) in *. set (r := Z.of_nat k mod size) in *. rewrite D, lxor_index by assumption.
      assert (FL : Forall (fun w : list Z => length w = Z.to_nat size) ws) by (revert F; apply Forall_impl; intros w [H _]; lia).
      replace k with (Z.to_nat q * Z.to_nat size + Z.to_nat r)%nat in E by nia. apply (concat_rev (Z.to_nat size) ws ltac:(lia) FL) in E; [|lia].
      replace (Z.to_nat (q * size + (size - 1 - r))) with (Z.to_nat q * Z.to_nat size + (Z.to_nat size - 1 - Z.to_nat r))%nat; [exact E|]. rewrite Z2Nat.inj_add, Z2Nat.inj_mul by nia. lia.
    + assert (size = 1) by lia. subst size. cbn [Z.eqb]. assert (R : map (@rev Z) ws = ws).
      { clear -F. induction F as [|w ws [H _] F IH]; [reflexivity|]. cbn [map]. rewrite IH. destruct w as [|a [|b w]]; cbn [length] in H; try lia. reflexivity. }
      rewrite R. apply loop_ok; assumption.
  - cbn [Z.eqb]. apply loop_ok; assumption.
Qed.

(** Each call gives what it has to, whatever the order of bytes in the machine. *)
Theorem c64_call : forall (c : check) (le : bool) (old size : Z) (ws : list (list Z)) (mode : Z),
  words size ws -> update_crc_ne le old (width c) (memory le ws) size (Z.of_nat (length ws)) mode = Some (call c mode old (concat ws)).
Proof.
  intros c le old size ws mode W. destruct (words_flat _ _ W) as (B & L & P). pose proof W as (_ & _ & M). unfold update_crc_ne, call.
  destruct (Z.leb_spec 0 (size * Z.of_nat (length ws))) as [H1|H1]; [|lia]. destruct (Z.ltb_spec (size * Z.of_nat (length ws)) (2 ^ 31)) as [H2|H2]; [|lia]. cbn [andb negb].
  destruct c; cbn [width Z.eqb Pos.eqb];
  [change 0xFFFF with (Z.ones 16); pose proof (update_ok CRC16 le size ws) as U|change 0xFFFFFF with (Z.ones 24); pose proof (update_ok CRC24 le size ws) as U|change (Z.land old 0xFFFFFFFF) with (Z.land old (Z.ones 32)); pose proof (update_ok CRC32 le size ws) as U];
  rewrite Z.land_ones by lia; cbn [turn width] in U; (rewrite U; [reflexivity|exact W|]); destruct (mode =? 0); cbn [first_value]; (apply Z.mod_pos_bound; lia) || lia.
Qed.
Print Assumptions c64_call.

(** Calls for the pieces of a message, with words of any sizes. *)
Definition piece := (Z * list (list Z))%type.
Fixpoint calls (le : bool) (c : check) (old : Z) (ps : list (Z * piece)) : option Z :=
  match ps with
  | [] => Some old
  | (mode, (size, ws)) :: ps => match update_crc_ne le old (width c) (memory le ws) size (Z.of_nat (length ws)) mode with None => None | Some x => calls le c x ps end
  end.
Definition message (ps : list piece) : list Z := concat (map (fun p => concat (snd p)) ps).
Lemma middle_ok c le last : words (fst last) (snd last) -> forall ps x, 0 <= x < 2 ^ width c -> Forall (fun p => words (fst p) (snd p)) ps ->
  calls le c x (map (fun p => (1, p)) ps ++ [(2, last)]) = Some (Z.lxor (fold_left (one_byte c) (message (ps ++ [last])) x) (last_xor c)).
Proof.
  intros WL. induction ps as [|[size ws] ps IH]; intros x X F.
  - destruct last as [size ws]. cbn [fst snd] in WL. cbn [map app calls message]. rewrite c64_call by exact WL. unfold call, message. cbn [Z.eqb Pos.eqb map concat snd]. rewrite Z.mod_small, app_nil_r by exact X. reflexivity.
  - apply Forall_cons_iff in F as [W F]. cbn [fst snd] in W. cbn [map app calls]. rewrite c64_call by exact W. unfold call. cbn [Z.eqb Pos.eqb]. rewrite Z.mod_small by exact X. rewrite IH; [|apply fold_range; [exact X|apply (words_flat _ _ W)]|exact F].
    unfold message. cbn [map concat snd]. rewrite fold_left_app. reflexivity.
Qed.
Theorem c64_pieces : forall (c : check) (le : bool) (old : Z) (first last : piece) (ps : list piece),
  Forall (fun p => words (fst p) (snd p)) (first :: ps ++ [last]) ->
  calls le c old ((0, first) :: map (fun p => (1, p)) ps ++ [(2, last)]) = Some (crc c (message (first :: ps ++ [last]))).
Proof.
  intros c le old [size ws] last ps F. apply Forall_cons_iff in F as [W F]. apply Forall_app in F as [F FL]. apply Forall_cons_iff in FL as [WL _]. cbn [fst snd] in W. cbn [calls]. rewrite c64_call by exact W. unfold call. cbn [Z.eqb].
  rewrite (middle_ok c le last WL ps); [|apply fold_range; [destruct c; cbn; lia|apply (words_flat _ _ W)]|exact F]. unfold crc, message. cbn [map concat snd]. rewrite fold_left_app. reflexivity.
Qed.
Print Assumptions c64_pieces.

(** One wrong byte is always seen. *)
Lemma fold_inj c post : bytes post -> forall x y, 0 <= x < 2 ^ width c -> 0 <= y < 2 ^ width c -> fold_left (one_byte c) post x = fold_left (one_byte c) post y -> x = y.
Proof.
  induction post as [|v post IH]; intros B x y X Y E; [exact E|]. apply Forall_cons_iff in B as [V B]. cbn [fold_left] in E. apply IH in E; [|exact B|apply one_byte_range; assumption|apply one_byte_range; assumption]. apply one_byte_inj in E; try assumption. apply E. reflexivity.
Qed.
Theorem c64_detect : forall (c : check) (le : bool) (old size : Z) (ws ws' : list (list Z)) (mode : Z) (pre post : list Z) (a b : Z),
  words size ws -> words size ws' -> concat ws = pre ++ a :: post -> concat ws' = pre ++ b :: post -> a <> b ->
  update_crc_ne le old (width c) (memory le ws) size (Z.of_nat (length ws)) mode <> update_crc_ne le old (width c) (memory le ws') size (Z.of_nat (length ws')) mode.
Proof.
  intros c le old size ws ws' mode pre post a b W W' E E' N H. rewrite !c64_call in H by assumption. injection H as H. destruct (words_flat _ _ W) as (B & _). destruct (words_flat _ _ W') as (B' & _). rewrite E in *. rewrite E' in *.
  apply Forall_app in B as [BP B]. apply Forall_cons_iff in B as [BA BQ]. apply Forall_app in B' as [_ B']. apply Forall_cons_iff in B' as [BB _].
  unfold call in H. rewrite !fold_left_app in H. cbn [fold_left] in H. set (x := fold_left (one_byte c) pre _) in H.
  assert (X : 0 <= x < 2 ^ width c) by (apply fold_range; [destruct (mode =? 0); [destruct c; cbn; lia|apply Z.mod_pos_bound; destruct c; cbn; lia]|exact BP]).
  assert (H2 : fold_left (one_byte c) post (one_byte c x a) = fold_left (one_byte c) post (one_byte c x b)).
  { destruct (mode =? 2); [|exact H]. apply (f_equal (fun z => Z.lxor z (last_xor c))) in H. rewrite !Z.lxor_assoc, Z.lxor_nilpotent, !Z.lxor_0_r in H. exact H. }
  apply fold_inj in H2; [|exact BQ|apply one_byte_range; assumption|apply one_byte_range; assumption]. apply one_byte_inj in H2; try assumption. apply N, H2. reflexivity.
Qed.
Print Assumptions c64_detect.

(** [calc_crc] is the check of CCITT, started from the seed, on every [stride]th byte. *)
Lemma calc_turn h v : 0 <= h < 2 ^ 16 -> 0 <= v < 256 ->
  turn_calc h v = left_byte 16 0x1021 h v.
Proof.
  intros H V. unfold turn_calc. rewrite <- (left_turn 0x1021 magic 16 h v); [|lia|vm_compute; reflexivity|vm_compute; reflexivity|exact H|exact V]. change (16 - 8) with 8. change 0xffff with (Z.ones 16). rewrite Z.shiftr_lxor, Z.shiftr_shiftl_l by lia. rewrite Z.sub_diag, Z.shiftl_0_r, Z.lxor_comm, !Z.land_ones by lia. rewrite !(lxor_mod _ _ 16) by lia. f_equal.
  rewrite Z.shiftl_lxor, lxor_mod, Z.shiftl_shiftl by lia. rewrite (Z.shiftl_mul_pow2 v) by lia. change (8 + 8) with 16. rewrite Z.mod_mul, Z.lxor_0_r by lia. reflexivity.
Qed.
Lemma left16_range h v : 0 <= h < 2 ^ 16 -> 0 <= v < 256 -> 0 <= left_byte 16 0x1021 h v < 2 ^ 16.
Proof. intros H V. rewrite <- calc_turn by assumption. unfold turn_calc. cbv zeta. change 0xffff with (Z.ones 16). rewrite Z.land_ones by lia. apply Z.mod_pos_bound. lia. Qed.
Lemma calc_loop_end fuel i h buffer len stride : len <= i -> calc_loop fuel i h buffer len stride = Some h.
Proof. intros E. destruct fuel; cbn [calc_loop]; (destruct (Z.ltb_spec i len); [lia|reflexivity]). Qed.
Lemma calc_loop_S fuel i h buffer len stride v : i < len -> nth_error buffer (Z.to_nat i) = Some v -> calc_loop (S fuel) i h buffer len stride = calc_loop fuel (i + stride) (turn_calc h v) buffer len stride.
Proof. intros E N. cbn [calc_loop]. destruct (Z.ltb_spec i len); [|lia]. rewrite N. reflexivity. Qed.
Lemma calc_loop_ok (g : Z -> Z -> Z) buffer len stride :
  (forall h v, 0 <= h < 2 ^ 16 -> 0 <= v < 256 -> turn_calc h v = g h v /\ 0 <= g h v < 2 ^ 16) -> 0 < stride -> bytes buffer -> len <= Z.of_nat (length buffer) ->
  forall n k fuel h, 0 <= h < 2 ^ 16 -> (n <= fuel)%nat -> Z.of_nat (k + n) * stride >= len -> (n = O \/ Z.of_nat (k + n - 1) * stride < len) ->
  calc_loop fuel (Z.of_nat k * stride) h buffer len stride = Some (fold_left g (map (fun k => nth (Z.to_nat (Z.of_nat k * stride)) buffer 0) (seq k n)) h).
Proof.
  intros G SP B L. induction n as [|n IH]; intros k fuel h H F E1 E2.
  - rewrite Nat.add_0_r in E1. apply calc_loop_end. lia.
  - destruct E2 as [E2|E2]; [discriminate|]. destruct fuel as [|fuel]; [lia|]. assert (LT : Z.of_nat k * stride < len) by nia.
    assert (I : (Z.to_nat (Z.of_nat k * stride) < length buffer)%nat) by nia. assert (V : 0 <= nth (Z.to_nat (Z.of_nat k * stride)) buffer 0 < 256) by (unfold bytes in B; rewrite Forall_forall in B; apply B, nth_In, I).
    rewrite (calc_loop_S _ _ _ _ _ _ _ LT (nth_error_nth' buffer 0 I)). destruct (G h _ H V) as [-> R]. replace (Z.of_nat k * stride + stride) with (Z.of_nat (S k) * stride) by lia. cbn [seq map fold_left]. apply IH; [exact R|lia| |].
    + replace (S k + n)%nat with (k + S n)%nat by lia. exact E1.
    + destruct n as [|n]; [left; reflexivity|right]. replace (S k + S n - 1)%nat with (k + S (S n) - 1)%nat by lia. exact E2.
Qed.
Theorem c64_ccitt : forall (buffer : list Z) (len seed stride : Z), bytes buffer -> 0 <= len <= Z.of_nat (length buffer) -> 0 < stride ->
  calc_crc buffer len seed stride = Some (fold_left (left_byte 16 0x1021) (strided buffer len stride) (seed mod 2 ^ 16)).
Proof.
  intros buffer len seed stride B L S. unfold calc_crc, strided. change 0xffff with (Z.ones 16). rewrite Z.land_ones by lia. set (n := (len + stride - 1) / stride).
  assert (N : stride * n <= len + stride - 1 < stride * n + stride) by (unfold n; pose proof (Z.div_mod (len + stride - 1) stride ltac:(lia)); pose proof (Z.mod_pos_bound (len + stride - 1) stride S); lia).
  assert (N0 : 0 <= n) by (unfold n; apply Z.div_pos; lia). change 0 with (Z.of_nat 0 * stride) at 1. apply calc_loop_ok; try assumption; try lia.
  - intros h v H V. split; [apply calc_turn; assumption|apply left16_range; assumption].
  - apply Z.mod_pos_bound. lia.
  - nia.
  - clearbody n. cbn [Nat.add]. destruct (Z.eq_dec n 0) as [->|NZ]; [left; reflexivity|right]. rewrite Nat2Z.inj_sub, Z2Nat.id by lia. nia.
Qed.
Print Assumptions c64_ccitt.

(** "123456789", in pieces of words of 2, 1 and 4 bytes, and the published values. *)
Definition demo_first : piece := (2, [[0x31; 0x32]; [0x33; 0x34]]).
Definition demo_mid : piece := (1, [[0x35]]).
Definition demo_last : piece := (4, [[0x36; 0x37; 0x38; 0x39]]).
Example demo_words : Forall (fun p => words (fst p) (snd p)) [demo_first; demo_mid; demo_last].
Proof.
  assert (V : forall l, forallb (fun v => (0 <=? v) && (v <? 256)) l = true -> bytes l) by (intros l H; apply Forall_forall; intros v I; rewrite forallb_forall in H; specialize (H v I); lia).
  repeat (apply Forall_cons; [split; [cbn; tauto|split; [repeat (apply Forall_cons; [split; [reflexivity|apply V; reflexivity]|]); apply Forall_nil|cbn; lia]]|]). apply Forall_nil.
Qed.
Example demo_values : (crc CRC16 (message [demo_first; demo_mid; demo_last]), crc CRC24 (message [demo_first; demo_mid; demo_last]), crc CRC32 (message [demo_first; demo_mid; demo_last])) = (0xBB3D, 0x21CF02, 0xCBF43926).
Proof. vm_compute. reflexivity. Qed.
Example demo_calls : calls true CRC32 77 [(0, demo_first); (1, demo_mid); (2, demo_last)] = Some 0xCBF43926.
Proof. vm_compute. reflexivity. Qed.
Example demo_ccitt : calc_crc [0x31; 0; 0x32; 0; 0x33; 0; 0x34; 0; 0x35; 0; 0x36; 0; 0x37; 0; 0x38; 0; 0x39] 17 0 2 = Some 0x31C3.
Proof. vm_compute. reflexivity. Qed.

(** Words of 3 bytes: the loop reads outside of the data. *)
Theorem c64_size_refuted : update_crc_ne true 0 32 [1; 2; 3] 3 1 0 = None.
Proof. vm_compute. reflexivity. Qed.
Print Assumptions c64_size_refuted.
