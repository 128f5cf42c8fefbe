(** The MD5 digest and the HMAC made of it: property C62. *)
From Coq Require Import ZArith List Lia Bool.
From Verif Require Import Md5 Md5Spec Md5Facts.
Import ListNotations.
Open Scope Z_scope.

Lemma pieces_digest junk ps : length junk = 64%nat -> (forall x, In x ps -> Forall byte x /\ Z.of_nat (length x) < 2 ^ 31) -> md5_pieces junk ps = rfc_digest (concat ps).
Proof.
  intros J H. destruct (updates_inv ps _ _ (starts_inv junk J) (Forall_nil _) H) as [I B]. exact (finish_digest _ _ I B).
Qed.
(** The digest of a message given in any pieces is that of RFC 1321. *)
Theorem c62_pieces : forall junk ps, length junk = 64%nat -> (forall x, In x ps -> (forall b, In b x -> 0 <= b < 256) /\ Z.of_nat (length x) < 2 ^ 31) ->
  md5_pieces junk ps = rfc_digest (concat ps).
Proof. intros junk ps J H. apply pieces_digest; [exact J|]. intros x X. destruct (H x X) as [A B]. split; [apply Forall_forall; exact A|exact B]. Qed.
Theorem c62_md5 : forall junk m, length junk = 64%nat -> (forall b, In b m -> 0 <= b < 256) -> Z.of_nat (length m) < 2 ^ 31 -> md5 junk m = rfc_digest m.
Proof.
  intros junk m J B L. replace m with (concat [m]) at 2 by (cbn [concat]; apply app_nil_r). apply (c62_pieces junk [m] J). intros x [<-|[]]. auto.
Qed.

Lemma pad_spec v key : 0 <= v < 256 -> Forall byte key -> (length key <= 64)%nat ->
  hmac_pad v key = map (Z.lxor v) (key ++ repeat 0 (64 - length key)) /\ Forall byte (hmac_pad v key) /\ length (hmac_pad v key) = 64%nat.
Proof.
  intros V B L. unfold hmac_pad. split; [|split; [|rewrite app_length, map_length, repeat_length; lia]].
  - rewrite map_app. f_equal.
    + apply map_ext_in. intros b I. rewrite Forall_forall in B. specialize (B b I). unfold byte in B. apply Z.bits_inj'. intros n N. change 256 with (2 ^ 8) in *. destruct (Z.lt_ge_cases n 8); [rewrite Z.mod_pow2_bits_low by lia; reflexivity|].
      rewrite Z.mod_pow2_bits_high, Z.lxor_spec by lia. rewrite <- (Z.mod_small v (2 ^ 8)), <- (Z.mod_small b (2 ^ 8)), !Z.mod_pow2_bits_high by lia. reflexivity.
    + generalize (64 - length key)%nat. intros n. induction n as [|n IH]; cbn [repeat map]; [reflexivity|]. rewrite Z.lxor_0_r, <- IH. reflexivity.
  - apply Forall_app. split; apply Forall_forall; intros y Y; [apply in_map_iff in Y as (b & <- & _); unfold byte; apply Z.mod_pos_bound; lia|apply repeat_spec in Y; subst; exact V].
Qed.
Lemma digest_bytes m : Forall byte (rfc_digest m) /\ length (rfc_digest m) = 16%nat.
Proof.
  unfold rfc_digest. destruct (fold_left _ _ _) as [[[a b] c] d]. split; [repeat (apply Forall_app; split); apply to_bytes_byte|rewrite !app_length, !to_bytes_length; reflexivity].
Qed.
Lemma two_digest junk a b : length junk = 64%nat -> Forall byte a -> Forall byte b -> Z.of_nat (length a) < 2 ^ 31 -> Z.of_nat (length b) < 2 ^ 31 ->
  md5_finish (md5_update (md5_update (md5_starts junk) a) b) = rfc_digest (a ++ b).
Proof.
  intros J A B LA LB. pose proof (update_inv _ _ a (starts_inv junk J) (Forall_nil _) A LA) as I1. pose proof (update_inv _ _ b I1 A B LB) as I2. apply (finish_digest _ _ I2). apply Forall_app. auto.
Qed.
(** The HMAC of a text given in any pieces is that of RFC 2104. *)
Theorem c62_hmac : forall junk junk2 key ps, length junk = 64%nat -> length junk2 = 64%nat -> (forall b, In b key -> 0 <= b < 256) -> Z.of_nat (length key) < 2 ^ 31 ->
  (forall x, In x ps -> (forall b, In b x -> 0 <= b < 256) /\ Z.of_nat (length x) < 2 ^ 31) -> md5_hmac junk junk2 key ps = rfc_hmac key (concat ps).
Proof.
  intros junk junk2 key ps J J2 BK LK H. unfold md5_hmac, md5_hmac_starts, rfc_hmac. rewrite c62_md5 by assumption. set (k := if (64 <? length key)%nat then _ else _).
  assert (BB : Forall byte k /\ (length k <= 64)%nat).
  { unfold k. destruct (Nat.ltb_spec 64 (length key)); [destruct (digest_bytes key) as [A B]; split; [exact A|lia]|]. split; [apply Forall_forall; exact BK|assumption]. }
  destruct BB as [B L]. destruct (pad_spec 0x36 k ltac:(lia) B L) as (E1 & B1 & L1). destruct (pad_spec 0x5C k ltac:(lia) B L) as (E2 & B2 & L2).
  assert (IN : md5_finish (fold_left md5_update ps (md5_update (md5_starts junk) (hmac_pad 0x36 k))) = rfc_digest (hmac_pad 0x36 k ++ concat ps)).
  { apply (pieces_digest junk (hmac_pad 0x36 k :: ps) J). intros x [<-|X]; [split; [exact B1|rewrite L1; lia]|]. destruct (H x X) as [A C]. split; [apply Forall_forall; exact A|exact C]. }
  unfold md5_hmac_finish. cbn [fst snd]. rewrite IN, <- E1, <- E2. destruct (digest_bytes (hmac_pad 0x36 k ++ concat ps)) as [BD LD].
  apply two_digest; try assumption; [rewrite L2|rewrite LD]; lia.
Qed.

(** A message of 100 bytes in pieces of 3, 70 and 27 bytes; "abc", as in the RFC;
    a key longer than a block. *)
Definition sample : list (list Z) := [[1; 2; 3]; map Z.of_nat (seq 0 70); repeat 255 27].
Example md5_demo : md5_pieces (repeat 7 64) sample = md5 (repeat 9 64) (concat sample) /\
  md5 (repeat 7 64) [97; 98; 99] = [0x90; 0x01; 0x50; 0x98; 0x3c; 0xd2; 0x4f; 0xb0; 0xd6; 0x96; 0x3f; 0x7d; 0x28; 0xe1; 0x7f; 0x72] /\
  rfc_digest [97; 98; 99] = md5 (repeat 7 64) [97; 98; 99] /\
  rfc_hmac (repeat 170 80) [97; 98; 99] = md5_hmac (repeat 7 64) (repeat 8 64) (repeat 170 80) [[97]; [98; 99]].
Proof. refine (conj _ (conj _ (conj _ _))); vm_compute; reflexivity. Qed.
Example md5_demo_ok : forall x, In x sample -> (forall b, In b x -> 0 <= b < 256) /\ Z.of_nat (length x) < 2 ^ 31.
Proof.
  assert (A : forallb (fun x => forallb (fun b => (0 <=? b) && (b <? 256)) x && (Z.of_nat (length x) <? 2 ^ 31)) sample = true) by (vm_compute; reflexivity).
  rewrite forallb_forall in A. intros x X. specialize (A x X). apply andb_prop in A as [A L]. apply Z.ltb_lt in L. split; [|exact L]. rewrite forallb_forall in A. intros b I. specialize (A b I). apply andb_prop in A as [A1 A2]. apply Z.leb_le in A1. apply Z.ltb_lt in A2. lia.
Qed.

Print Assumptions c62_pieces.
Print Assumptions c62_md5.
Print Assumptions c62_hmac.
