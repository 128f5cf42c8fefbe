(** The comparison of keys made by a search. *)
From Coq Require Import ZArith List Lia Bool.
From Verif Require Import Bits WaFile Xdf XdfLib XdfSearch XdfSpec Dates Fst FstSpec FstFacts.
Import ListNotations.
Open Scope Z_scope.

Lemma app_inj {A} (a b c d : list A) : length a = length c -> a ++ b = c ++ d -> a = c /\ b = d.
Proof. revert c. induction a as [|x a IH]; intros [|y c] L E; try discriminate; [auto|]. cbn in *. injection E as -> E. destruct (IH c ltac:(lia) E) as [-> ->]. auto. Qed.
Lemma unsix_length v n : length (unsix v n) = n.
Proof. unfold unsix. rewrite map_length, seq_length. reflexivity. Qed.
Lemma same_text_iff x y : same_text x y = true <-> x = y.
Proof. unfold same_text. destruct (list_eq_dec Z.eq_dec x y); split; congruence. Qed.

Lemma text_match t n v : Forall printable t -> 0 <= v < 64 ^ Z.of_nat n ->
  (v = six (padded n t) 0 n mod 64 ^ Z.of_nat n <-> kept n t = unsix v n) /\ (six (padded n t) 0 n =? 0) = blank (blank_filled n t).
Proof.
  intros T V. rewrite blank_filled_padded. pose proof (blank_filled_printable n t T) as P. pose proof (blank_filled_length n t) as L.
  destruct (unsix_six (blank_filled n t) 0 n P ltac:(lia)) as [_ R]. rewrite Z.mod_small by exact R.
  assert (E : firstn n (skipn 0 (blank_filled n t)) = blank_filled n t) by (cbn [skipn]; rewrite <- L at 1; apply firstn_all).
  rewrite (six_eq _ 0 n v P ltac:(lia) V), (six_zero _ 0 n P), E. split; [reflexivity|reflexivity].
Qed.
Lemma etiket_match t a b c : Forall printable t -> 0 <= a < 64 ^ 5 -> 0 <= b < 64 ^ 5 -> 0 <= c < 64 ^ 2 ->
  let et := padded 12 t in
  (a = six et 0 5 mod 64 ^ 5 /\ b = six et 5 5 mod 64 ^ 5 /\ c = six et 10 2 mod 64 ^ 2 <-> kept 12 t = unsix a 5 ++ unsix b 5 ++ unsix c 2) /\
  (six et 0 5 =? 0) && (six et 5 5 =? 0) = blank (blank_filled 10 t).
Proof.
  intros T A B C et. unfold et. rewrite blank_filled_padded. pose proof (blank_filled_printable 12 t T) as P. pose proof (blank_filled_length 12 t) as L. clear et. set (et := blank_filled 12 t) in *.
  destruct (unsix_six et 0 5 P ltac:(lia)) as [_ R1]. destruct (unsix_six et 5 5 P ltac:(lia)) as [_ R2]. destruct (unsix_six et 10 2 P ltac:(lia)) as [_ R3].
  change (64 ^ Z.of_nat 5) with (64 ^ 5) in *. change (64 ^ Z.of_nat 2) with (64 ^ 2) in *. rewrite !Z.mod_small by assumption.
  rewrite (six_eq et 0 5 a P ltac:(lia) A), (six_eq et 5 5 b P ltac:(lia) B), (six_eq et 10 2 c P ltac:(lia) C). split.
  - unfold kept. fold et. assert (E : et = firstn 5 (skipn 0 et) ++ firstn 5 (skipn 5 et) ++ firstn 2 (skipn 10 et)) by reflexivity.
    rewrite E at 4. rewrite !map_app. split.
    + intros (-> & -> & ->). reflexivity.
    + intros H. apply app_inj in H; [|rewrite unsix_length, map_length, firstn_length, skipn_length; lia]. destruct H as [-> H].
      apply app_inj in H; [|rewrite unsix_length, map_length, firstn_length, skipn_length; lia]. destruct H as [-> ->]. auto.
  - rewrite !six_zero by exact P. unfold blank, et, blank_filled. cbn [seq map skipn firstn forallb]. rewrite !andb_true_r, !andb_assoc. reflexivity.
Qed.

Lemma bool_or (b : bool) (P : Prop) c : (c = true <-> P) -> (b = true \/ P <-> b || c = true).
Proof. intros H. rewrite orb_true_iff. tauto. Qed.

Lemma query_match q ws : query_ok q -> (forall j, 0 <= nth j ws 0 < 2 ^ 32) -> (q_datev q = -1 \/ exists d, k_date (keys_of ws) = octal_date d) ->
  forallb (fun j => Z.land (Z.lxor (nth j ws 0) (nth j (key_words (query_keys q)) 0)) (nth j (key_words (query_mask q)) 0) =? 0) (seq 0 16)
  = wanted q (entry_label ws).
Proof.
  intros ((DR & DD) & (R1 & R2 & R3) & PT & PN & PE) W DC.
  assert (G : forall j s n, 0 <= n -> 0 <= getf (nth j ws 0) s n < 2 ^ n) by (intros; apply getf_range; assumption).
  apply eq_true_iff_eq. unfold wanted, entry_label. cbn [l_datev l_ip1 l_ip2 l_ip3 l_typvar l_nomvar l_etiket].
  unfold keys_of in *. cbn [k_date k_ip1 k_ip2 k_ip3 k_typvar k_nomvar k_etik15 k_etik6a k_etikbc] in *.
  cbn [seq forallb]. rewrite !andb_true_iff, !Z.eqb_eq. unfold key_words, query_mask, query_keys. cbv zeta.
  cbn [nth k_deet k_nbits k_ni k_gtyp k_nj k_datyp k_nk k_ubc k_npas k_pad7 k_ig4 k_ig2a k_ig1 k_ig2b k_ig3 k_ig2c k_etik15 k_pad1 k_etik6a k_pad2 k_etikbc k_typvar k_pad3 k_nomvar k_pad4 k_ip1 k_levtyp k_ip2 k_pad5 k_ip3 k_pad6 k_date].
  rewrite !(ignored_word _ 8 24) by lia. rewrite ?(ignored_word _ 12 20), ?(ignored_word _ 6 26) by lia.
  rewrite !(masked_word _ _ _ 2 30) by (lia || apply W). rewrite !(masked_word _ _ _ 8 24) by (lia || apply W). rewrite !(masked_word _ _ _ 4 28) by (lia || apply W).
  rewrite masked_word3 by apply W. rewrite masked_date by apply W.
  destruct (text_match (q_typvar q) 2 (getf (nth 10 ws 0) 8 12) PT ltac:(apply (G 10%nat 8 12); lia)) as [T1 T2].
  destruct (text_match (q_nomvar q) 4 (getf (nth 11 ws 0) 8 24) PN ltac:(apply (G 11%nat 8 24); lia)) as [N1 N2].
  destruct (etiket_match (q_etiket q) (getf (nth 8 ws 0) 2 30) (getf (nth 9 ws 0) 2 30) (getf (nth 10 ws 0) 20 12) PE) as [E1 E2];
    [apply (G 8%nat 2 30); lia|apply (G 9%nat 2 30); lia|apply (G 10%nat 20 12); lia|].
  cbv zeta in E1, E2. change (64 ^ 5) with (2 ^ 30) in E1. change (64 ^ 2) with (2 ^ 12) in E1. change (64 ^ Z.of_nat 2) with (2 ^ 12) in T1. change (64 ^ Z.of_nat 4) with (2 ^ 24) in N1.
  rewrite E2, T2, N2. rewrite N1.
  assert (IP : forall v e, -1 <= v < 2 ^ 28 -> ((v =? -1) = true \/ e = v mod 2 ^ 28 <-> (v =? -1) || (v =? e) = true)).
  { intros v e V. destruct (Z.eqb_spec v (-1)) as [->|NE]; [tauto|]. cbn [orb]. rewrite Z.mod_small by lia. rewrite Z.eqb_eq. split; [intros [H|H]; [discriminate|lia]|intros ->; auto]. }
  rewrite !IP by assumption.
  assert (DA : ((q_datev q =? -1) = true \/ nth 15 ws 0 / 8 = octal_date (q_datev q) mod 2 ^ 32 / 8) <->
               (q_datev q =? -1) || (q_datev q mod 2 ^ 32 / 10 =? int32 (decimal_date (getf (nth 15 ws 0) 0 32)) mod 2 ^ 32 / 10) = true).
  { destruct (Z.eqb_spec (q_datev q) (-1)) as [->|NE]; [tauto|]. cbn [orb]. destruct DC as [DC|(d & DC)]; [contradiction|]. destruct DD as [DD|DD]; [contradiction|].
    rewrite (Z.mod_small (octal_date _)) by apply octal_range. assert (X : getf (nth 15 ws 0) 0 32 = nth 15 ws 0). { unfold getf. rewrite Z.pow_0_r, Z.div_1_r. apply Z.mod_small. apply W. }
    rewrite X in *. rewrite DC. rewrite Z.eqb_eq. rewrite (same_decade d (q_datev q) DD). split; [intros [H|H]; [discriminate|exact H]|auto]. }
  rewrite DA. clear DA IP.
  assert (TX : forall (b : bool) x y, (b = true \/ x = y) <-> b || same_text x y = true) by (intros b x y; rewrite orb_true_iff, same_text_iff; reflexivity).
  rewrite <- !TX. rewrite T1. clear - E1.
  set (bl := blank (blank_filled 10 (q_etiket q))) in *. clearbody bl. destruct bl; intuition (auto; congruence).
Qed.
