(** Keys of reports: what mrbini and mrbupd write and mrbhdr reads. *)
From Coq Require Import ZArith List Lia Bool.
From Verif Require Import Bits BitIO CompactInt SpecPack Handles WaFile Xdf XdfLib XdfEnum XdfKeys XdfKeysFacts XdfKeysThm XdfBuf XdfBufSpec XdfBufFacts Fst Burp Burp2 BurpKeys BurpFile BurpBuf BurpSpec BurpUse BurpPack BurpInv.
Import ListNotations.
Open Scope Z_scope.
Open Scope opt_scope.

(** What keys written over zeros become. *)
Definition written (fs : list field) (keys : list Z) : list Z := map (fun fk => after_write (fst fk) (snd fk) 0) (combine fs keys).
Definition khead (K : list Z) (h : rhead) : Prop :=
  map (key_in K) burp_fields = written burp_fields (head_keys h) /\ map (info_in 4 K) (tl burp_info) = written (tl burp_info) (tl (head_info h)) /\ w_idtyp (nth 0 K 0) = 1.

Lemma in_prefix (K R : list Z) f : (fd_w f < 6)%nat -> length K = 10%nat -> key_in (K ++ R) f = key_in K f.
Proof. intros F L. unfold key_in. rewrite app_nth1 by lia. reflexivity. Qed.
Lemma info_prefix (K R : list Z) f : (fd_w f < 2)%nat -> length K = 10%nat -> info_in 4 (K ++ R) f = info_in 4 K f.
Proof. intros F L. unfold info_in. rewrite app_nth1 by lia. reflexivity. Qed.
Lemma map_prefix K R fs : Forall (fun f => (fd_w f < 6)%nat) fs -> length K = 10%nat -> map (key_in (K ++ R)) fs = map (key_in K) fs.
Proof. intros F L. apply map_ext_in. intros x X. apply in_prefix; [|exact L]. rewrite Forall_forall in F. apply F, X. Qed.
Lemma imap_prefix K R fs : Forall (fun f => (fd_w f < 2)%nat) fs -> length K = 10%nat -> map (info_in 4 (K ++ R)) fs = map (info_in 4 K) fs.
Proof. intros F L. apply map_ext_in. intros x X. apply info_prefix; [|exact L]. rewrite Forall_forall in F. apply F, X. Qed.
Lemma prim_w : Forall (fun f => (fd_w f < 6)%nat) burp_fields.
Proof. apply burp_layout. Qed.
Lemma info_w : Forall (fun f => (fd_w f < 2)%nat) burp_info.
Proof. apply burp_info_layout. Qed.
Lemma tl_info_w : Forall (fun f => (fd_w f < 2)%nat) (tl burp_info).
Proof. pose proof info_w as H. unfold burp_info in *. cbn [tl]. inversion H; assumption. Qed.

(** mrbhdr *)
Lemma read_bits_keys d : (8 <= length d)%nat -> read_bits burp_fields (skipn 2 d) = Some (map (key_in d) burp_fields).
Proof.
  intros L. rewrite read_bits_eq by apply burp_byte_ups. apply read_keys_spec. split; [apply map_length|]. intros i f I. pose proof prim_w as PW. rewrite Forall_forall in PW. pose proof (PW f (nth_error_In _ _ I)) as W. cbn beta in W. rewrite skipn_length.
  split; [lia|]. rewrite nth_error_map, I. cbn [option_map]. unfold key_in. rewrite XdfKeysThm.nth_skipn_d. reflexivity.
Qed.
Lemma read_bits_info d : (10 <= length d)%nat -> read_bits burp_info (skipn 8 d) = Some (map (info_in 4 d) burp_info).
Proof.
  intros L. rewrite read_bits_eq by apply info_byte_ups. apply read_keys_spec. split; [apply map_length|]. intros i f I. pose proof info_w as PW. rewrite Forall_forall in PW. pose proof (PW f (nth_error_In _ _ I)) as W. cbn beta in W. rewrite skipn_length.
  split; [lia|]. rewrite nth_error_map, I. cbn [option_map]. unfold info_in. rewrite XdfKeysThm.nth_skipn_d. reflexivity.
Qed.

Lemma bits_w32 n v : 0 < n < 32 -> bits_ok n v -> w32 v = v /\ v <> 2 ^ 32 - 1 /\ v mod 2 ^ n = v.
Proof.
  intros N [A B]. assert (2 ^ n <= 2 ^ 31) by (apply Z.pow_le_mono_r; lia). split; [apply Z.mod_small; lia|]. split; [lia|]. apply Z.mod_small. lia.
Qed.
Lemma write_plain w s n v : 0 < n < 32 -> bits_ok n v -> after_write (mkfield w s n false) (w32 v) 0 = v.
Proof. intros N B. destruct (bits_w32 n v N B) as (E1 & E2 & E3). unfold after_write, key_of. cbn [fd_up fd_n]. rewrite E1, (proj2 (Z.eqb_neq _ _) E2). exact E3. Qed.
Lemma char_cases c : char_ok c -> In c (map Z.of_nat (seq 0 96 ++ seq 97 26)).
Proof. intros H. apply in_map_iff. exists (Z.to_nat c). split; [destruct H; lia|]. apply in_or_app. destruct H; [left|right]; apply in_seq; lia. Qed.
Lemma write_char w s c : char_ok c -> after_write (mkfield w s 8 true) c 0 = capital c.
Proof.
  intros H. apply char_cases in H. revert c H. apply Forall_forall. rewrite Forall_forall. intros c H. apply in_map_iff in H. destruct H as (x & <- & H).
  assert (forallb (fun x => after_write (mkfield w s 8 true) (Z.of_nat x) 0 =? capital (Z.of_nat x)) (seq 0 96 ++ seq 97 26) = true) as F by (vm_compute; reflexivity).
  rewrite forallb_forall in F. apply Z.eqb_eq. apply F. exact H.
Qed.
Lemma nine_length l : length (nine l) = 9%nat.
Proof. unfold nine. rewrite firstn_length, app_length, repeat_length. lia. Qed.
Lemma nine_char l : Forall char_ok l -> Forall char_ok (nine l).
Proof.
  intros H. unfold nine. apply Forall_firstn, Forall_app. split; [exact H|]. apply Forall_forall. intros x X. apply repeat_spec in X. subst x. left. lia.
Qed.

Lemma key_date_fits d : date_ok d -> bits_ok 20 (date_key d).
Proof.
  intros [D M]. unfold date_key, bits_ok. destruct (Z.ltb_spec 999999 d) as [L|L]; [|lia]. destruct D as [D|D]; [lia|].
  assert (Y : 1900 <= d / 10000 < 2700) by (split; [apply Z.div_le_lower_bound; lia|apply Z.div_lt_upper_bound; lia]).
  rewrite Z.quot_div_nonneg by lia. assert (0 <= (d / 10000 - 1900) / 100) by (apply Z.div_pos; lia). assert ((d / 10000 - 1900) / 100 < 8) by (apply Z.div_lt_upper_bound; lia).
  pose proof (Z.mod_pos_bound (d / 10000) 100 ltac:(lia)). pose proof (Z.mod_pos_bound d 100 ltac:(lia)). lia.
Qed.
Lemma date_parts A M J : 0 <= M < 100 -> 0 <= J < 100 -> 0 <= A -> (A * 10000 + M * 100 + J) / 10000 = A /\ ((A * 10000 + M * 100 + J) / 100) mod 100 = M /\ (A * 10000 + M * 100 + J) mod 100 = J.
Proof.
  intros MB JB AB. split; [|split].
  - symmetry. apply (Z.div_unique _ 10000 A (M * 100 + J)); lia.
  - replace ((A * 10000 + M * 100 + J) / 100) with (M + A * 100 * 1) by (apply (Z.div_unique _ 100 _ J); lia). replace (M + A * 100 * 1) with (M + A * 100) by lia. rewrite Z.mod_add by lia. apply Z.mod_small. lia.
  - replace (A * 10000 + M * 100 + J) with (J + (A * 100 + M) * 100) by lia. rewrite Z.mod_add by lia. apply Z.mod_small. lia.
Qed.
Lemma date_split d : 0 <= d -> d = d / 10000 * 10000 + (d / 100) mod 100 * 100 + d mod 100.
Proof.
  intros D. pose proof (Z.div_mod d 100 ltac:(lia)). pose proof (Z.div_mod (d / 100) 100 ltac:(lia)). rewrite Z.div_div in * by lia. change (100 * 100) with 10000 in *. lia.
Qed.
Lemma date_key_seen e d : date_ok d -> key_date e (date_key d) = date_seen e d.
Proof.
  intros [D M]. pose proof (Z.mod_pos_bound d 100 ltac:(lia)) as JB. assert (D0 : 0 <= d) by lia. pose proof (date_split d D0) as DS. set (mo := (d / 100) mod 100) in *. set (jj := d mod 100) in *.
  unfold date_seen, full_date. destruct (Z.leb_spec d 999999) as [L|L].
  - assert (EK : date_key d = d) by (unfold date_key; rewrite (proj2 (Z.ltb_ge _ _)) by lia; reflexivity). rewrite EK. unfold key_date. fold mo jj.
    rewrite (proj2 (Z.ltb_ge 12 mo)) by lia. rewrite (proj2 (Z.leb_gt 20000000 _)) by lia. rewrite orb_false_r. cbn [orb]. destruct e; [|lia].
    assert (AB : 0 <= d / 10000 < 100) by (split; [apply Z.div_pos; lia|apply Z.div_lt_upper_bound; lia]). rewrite (Z.mod_small (d / 10000)) by lia.
    rewrite Z.quot_small by lia. rewrite Z.rem_small by lia. lia.
  - destruct D as [D|D]; [lia|]. assert (EK : date_key d = (d / 10000) mod 100 * 10000 + ((d / 10000 - 1900) / 100 * 12 + mo) * 100 + jj).
    { unfold date_key. rewrite (proj2 (Z.ltb_lt _ _)) by lia. cbv zeta. fold mo jj. rewrite Z.quot_div_nonneg; [reflexivity| |lia]. assert (1900 <= d / 10000) by (apply Z.div_le_lower_bound; lia). lia. }
    assert (Y : 1900 <= d / 10000 < 2700) by (split; [apply Z.div_le_lower_bound; lia|apply Z.div_lt_upper_bound; lia]). set (yy := d / 10000) in *. set (cc := (yy - 1900) / 100) in *.
    assert (CB : 0 <= cc <= 7). { unfold cc. split; [apply Z.div_pos; lia|]. enough ((yy - 1900) / 100 < 8) by lia. apply Z.div_lt_upper_bound; lia. }
    assert (YC : yy = 1900 + cc * 100 + yy mod 100).
    { pose proof (Z.div_mod (yy - 1900) 100 ltac:(lia)) as Q. fold cc in Q. replace (yy mod 100) with ((yy - 1900) mod 100); [lia|]. replace yy with (yy - 1900 + 19 * 100) at 2 by lia. rewrite Z.mod_add by lia. reflexivity. }
    pose proof (Z.mod_pos_bound yy 100 ltac:(lia)) as AB. destruct (date_parts (yy mod 100) (cc * 12 + mo) jj) as (P1 & P2 & P3); [lia|lia|lia|]. rewrite <- EK in P1, P2, P3.
    unfold key_date. rewrite P1, P2, P3. rewrite (Z.mod_small (yy mod 100)) by lia.
    assert (Q1 : (cc * 12 + mo - 1) ÷ 12 = cc). { rewrite Z.quot_div_nonneg by lia. symmetry. apply (Z.div_unique _ 12 cc (mo - 1)); lia. }
    assert (Q2 : Z.rem (cc * 12 + mo - 1) 12 = mo - 1). { rewrite Z.rem_mod_nonneg by lia. symmetry. apply (Z.mod_unique _ 12 cc (mo - 1)); lia. }
    rewrite Q1, Q2. destruct (Z.leb_spec 20000000 d) as [B|B].
    + assert (1 <= cc) by lia. rewrite (proj2 (Z.ltb_lt 12 _)) by lia. rewrite orb_true_r. cbn [orb]. lia.
    + assert (cc = 0) as C0. { assert (yy < 2000) by (apply Z.div_lt_upper_bound; lia). lia. } rewrite C0 in *. rewrite (proj2 (Z.ltb_ge 12 _)) by lia. rewrite orb_false_r. cbn [orb]. destruct e; [lia|]. rewrite EK. lia.
Qed.

Lemma hdr_seen e r K R h : b_data (r_b r) = K ++ R -> length K = 10%nat -> khead K h -> head_fits h -> mrbhdr e r = Some (seen e h, r_nblk r).
Proof.
  intros D L (KP & KI & _) (C & T1 & T2 & F & I & LA & LO & DX & DY & EL & DR & OA & RU & DA). unfold mrbhdr. rewrite D, read_bits_keys, read_bits_info by (rewrite app_length; lia). cbn [bind].
  rewrite (map_prefix _ _ _ prim_w L), (imap_prefix _ _ _ info_w L), KP. replace (map (info_in 4 K) burp_info) with (info_in 4 K (mkfield 0 16 16 false) :: map (info_in 4 K) (tl burp_info)) by reflexivity. rewrite KI.
  pose proof (nine_char _ C) as NC. pose proof (nine_length (rh_stnid h)) as NL. unfold head_keys. fold (nine (rh_stnid h)). destruct (nine (rh_stnid h)) as [|c1 [|c2 [|c3 [|c4 [|c5 [|c6 [|c7 [|c8 [|c9 [|]]]]]]]]]] eqn:EN; try discriminate NL.
  repeat match goal with H : Forall char_ok (_ :: _) |- _ => apply Forall_cons_iff in H; destruct H as [? ?] end.
  assert (T0 : rh_temps h <> -1). { intros E. rewrite E in T1. unfold bits_ok in T1. change (-1 / 100) with (-1) in T1. lia. }
  rewrite (proj2 (Z.eqb_neq _ _) T0).
  cbn [app map]. unfold burp_fields, burp_info, head_info, written. cbn [combine map tl fst snd nth firstn].
  rewrite !write_char by assumption. rewrite !(write_plain _ _ _ (rh_flgs h)), !(write_plain _ _ _ (rh_lati h)), !(write_plain _ _ _ (rh_long h)), !(write_plain _ _ _ (date_key (rh_date h))), !(write_plain _ _ _ (rh_dx h)), !(write_plain _ _ _ (rh_idtyp h)), !(write_plain _ _ _ (rh_dy h)), !(write_plain _ _ _ (rh_temps h / 100)), !(write_plain _ _ _ (rh_temps h mod 100)), !(write_plain _ _ _ (rh_oars h)), !(write_plain _ _ _ (rh_elev h)), !(write_plain _ _ _ (rh_drcv h)), !(write_plain _ _ _ (rh_run h)) by (try lia; try assumption; apply key_date_fits; exact DA).
  rewrite (date_key_seen e _ DA). unfold seen. rewrite EN. cbn [map]. replace (rh_temps h / 100 * 100 + rh_temps h mod 100) with (rh_temps h) by (pose proof (Z.div_mod (rh_temps h) 100 ltac:(lia)); lia). reflexivity.
Qed.
