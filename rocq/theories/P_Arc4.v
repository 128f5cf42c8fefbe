(** The ARC4 cipher: property C63. *)
From Coq Require Import ZArith List Lia Bool.
From Verif Require Import Arc4 Arc4Spec.
Import ListNotations.
Open Scope Z_scope.

Definition byte (b : Z) : Prop := 0 <= b < 256.
(** A list holds the table [t]. *)
Record holds (m : list Z) (t : Z -> Z) : Prop := mkholds { h_len : length m = 256%nat; h_nth : forall i, byte i -> get m i = t i; h_byte : forall i, byte i -> byte (t i) }.

Lemma get_put m i v k : length m = 256%nat -> byte i -> byte k -> get (put m i v) k = if k =? i then v else get m k.
Proof.
  unfold byte, get, put. intros L I K. destruct (Z.eqb_spec k i) as [->|N].
  - rewrite app_nth2; rewrite firstn_length; [|lia]. replace (Z.to_nat i - Nat.min (Z.to_nat i) (length m))%nat with 0%nat by lia. reflexivity.
  - destruct (Z.lt_ge_cases k i).
    + rewrite app_nth1 by (rewrite firstn_length; lia). rewrite <- (firstn_skipn (Z.to_nat i) m) at 2. rewrite app_nth1 by (rewrite firstn_length; lia). reflexivity.
    + rewrite <- (firstn_skipn (S (Z.to_nat i)) m) at 3. rewrite !app_nth2 by (rewrite firstn_length; lia). rewrite !firstn_length. replace (Z.to_nat k - Nat.min (Z.to_nat i) (length m))%nat with (S (Z.to_nat k - Nat.min (S (Z.to_nat i)) (length m))) by lia. reflexivity.
Qed.
Lemma put_length m i v : length m = 256%nat -> byte i -> length (put m i v) = 256%nat.
Proof. unfold put, byte. intros L I. rewrite app_length. cbn [length]. rewrite firstn_length, skipn_length. lia. Qed.
Lemma land_mod x : Z.land x 0xFF = x mod 256.
Proof. change 0xFF with (Z.ones 8). apply Z.land_ones. lia. Qed.
Lemma swap_holds m t i j : holds m t -> byte i -> byte j -> holds (put (put m i (get m j)) j (get m i)) (swap t i j).
Proof.
  intros [L N B] I J. split.
  - apply put_length; [apply put_length|]; assumption.
  - intros k K. rewrite !get_put by (try apply put_length; assumption). unfold swap. destruct (Z.eqb_spec k j) as [->|NJ]; [destruct (Z.eqb_spec j i) as [->|NI]; apply N; assumption|]. destruct (Z.eqb_spec k i); apply N; assumption.
  - intros k K. unfold swap. destruct (k =? i); [apply B; exact J|]. destruct (k =? j); apply B; assumption.
Qed.
Lemma mod_byte x : byte (x mod 256).
Proof. apply Z.mod_pos_bound. lia. Qed.

(** The context after [n] bytes *)
Record at_byte (c : arc4_context) (t0 : Z -> Z) (n : nat) : Prop := mkat {
  a_x : ax c = Z.of_nat n mod 256; a_y : ay c = fst (generator t0 n); a_m : holds (am c) (snd (generator t0 n)) }.
Definition out (t0 : Z -> Z) (n : nat) : Z := let '(j, t) := generator t0 (S n) in t ((t (Z.of_nat (S n) mod 256) + t j) mod 256).
Lemma lxor_byte a b : byte a -> byte b -> Z.lxor a b mod 256 = Z.lxor a b.
Proof.
  unfold byte. intros A B. apply Z.bits_inj'. intros n N. change 256 with (2 ^ 8) in *. destruct (Z.lt_ge_cases n 8); [rewrite Z.mod_pow2_bits_low by lia; reflexivity|].
  rewrite Z.mod_pow2_bits_high, Z.lxor_spec by lia. rewrite <- (Z.mod_small a (2 ^ 8)), <- (Z.mod_small b (2 ^ 8)), !Z.mod_pow2_bits_high by lia. reflexivity.
Qed.
Lemma byte_step c t0 n v : at_byte c t0 n -> byte v -> exists c', arc4_byte c v = (Z.lxor v (out t0 n), c') /\ at_byte c' t0 (S n) /\ byte (out t0 n).
Proof.
  intros [X Y H] V. unfold arc4_byte. rewrite !land_mod, X, Y, Z.add_mod_idemp_l by lia. replace (Z.of_nat n + 1) with (Z.of_nat (S n)) by lia.
  pose proof (mod_byte (Z.of_nat (S n))) as BI. destruct (generator t0 n) as [j t] eqn:G. cbn [fst snd] in *. set (i := Z.of_nat (S n) mod 256) in *. destruct H as [L N B] eqn:HH. assert (H' : holds (am c) t) by (split; assumption).
  pose proof (mod_byte (j + t i)) as BJ. rewrite (N i BI). set (j' := (j + t i) mod 256) in *. rewrite (N j' BJ). rewrite (Z.mod_small (t i)), (Z.mod_small (t j')) by (apply B; assumption).
  pose proof (swap_holds _ _ i j' H' BI BJ) as HS. rewrite (N i BI), (N j' BJ) in HS. destruct HS as [L2 N2 B2] eqn:E2.
  assert (GS : generator t0 (S n) = (j', swap t i j')) by (cbn [generator]; rewrite G; reflexivity).
  assert (OE : out t0 n = swap t i j' ((t i + t j') mod 256)).
  { unfold out. rewrite GS. fold i. f_equal. f_equal. unfold swap. rewrite Z.eqb_refl. destruct (Z.eqb_spec j' i) as [->|E]; [reflexivity|]. rewrite Z.eqb_refl. apply Z.add_comm. }
  pose proof (mod_byte (t i + t j')) as BK. assert (BO : byte (out t0 n)) by (rewrite OE; apply B2; exact BK). rewrite (N2 _ BK), <- OE, lxor_byte by assumption.
  eexists. split; [reflexivity|]. split; [|exact BO]. split; cbn [ax ay am]; [reflexivity|rewrite GS; reflexivity|rewrite GS; cbn [snd]; split; assumption].
Qed.
Lemma crypt_ok t0 buf : forall c n, at_byte c t0 n -> Forall byte buf ->
  exists c' o, arc4_crypt c buf = (o, c') /\ at_byte c' t0 (n + length buf) /\ length o = length buf /\ forall k, (k < length buf)%nat -> nth k o 0 = Z.lxor (nth k buf 0) (out t0 (n + k)) /\ byte (out t0 (n + k)).
Proof.
  induction buf as [|v buf IH]; intros c n A B; cbn [arc4_crypt length]; [exists c, []; rewrite Nat.add_0_r; split; [reflexivity|split; [exact A|split; [reflexivity|intros k K; lia]]]|]. apply Forall_cons_iff in B as [BV B].
  destruct (byte_step c t0 n v A BV) as (c1 & E & A1 & BO). rewrite E. destruct (IH c1 (S n) A1 B) as (c2 & o & E2 & A2 & L & O). rewrite E2. exists c2, (Z.lxor v (out t0 n) :: o). split; [reflexivity|]. split; [replace (n + S (length buf))%nat with (S n + length buf)%nat by lia; exact A2|]. split; [cbn [length]; lia|].
  intros k K. destruct k as [|k]; [rewrite Nat.add_0_r; auto|]. cbn [nth]. replace (n + S k)%nat with (S n + k)%nat by lia. apply O. lia.
Qed.

(** The key schedule *)
Lemma mod_succ i l : (0 < l)%nat -> ((if l <=? S (i mod l) then 0 else S (i mod l)) = S i mod l)%nat.
Proof.
  intros L. pose proof (Nat.div_mod i l ltac:(lia)) as D. pose proof (Nat.mod_upper_bound i l ltac:(lia)) as U. destruct (Nat.leb_spec l (S (i mod l))); [apply Nat.mod_unique with (S (i / l)); lia|apply Nat.mod_unique with (i / l)%nat; lia].
Qed.
Lemma turns_ok key n : key <> [] -> (n <= 256)%nat -> exists k m, fold_left (arc4_turn key) (seq 0 n) (0, O, map Z.of_nat (seq 0 256)) = (fst (schedule key n), k, m) /\
  ((if length key <=? k then 0 else k) = n mod length key)%nat /\ holds m (snd (schedule key n)).
Proof.
  intros NE. assert (KL : (0 < length key)%nat) by (destruct key; [contradiction|cbn [length]; lia]). induction n as [|n IH]; intros LN.
  - exists 0%nat, (map Z.of_nat (seq 0 256)). split; [reflexivity|]. split; [rewrite (proj2 (Nat.leb_gt _ _)), Nat.mod_0_l by lia; reflexivity|]. split; [rewrite map_length; apply seq_length| |intros i I; exact I].
    intros i I. unfold get. change 0 with (Z.of_nat 0) at 1. rewrite map_nth, seq_nth by (unfold byte in I; lia). cbn [schedule snd]. unfold byte in I. lia.
  - destruct (IH ltac:(lia)) as (k & m & E & K & H). rewrite seq_S, fold_left_app, E. cbn [fold_left Nat.add schedule]. destruct (schedule key n) as [j t] eqn:SC. cbn [fst snd] in *. unfold arc4_turn. rewrite K, land_mod.
    assert (BI : byte (Z.of_nat n)) by (unfold byte; lia). rewrite (h_nth _ _ H _ BI). set (j' := (j + t (Z.of_nat n) + _) mod 256). pose proof (mod_byte (j + t (Z.of_nat n) + nth (n mod length key) key 0)) as BJ. fold j' in BJ.
    eexists _, _. split; [reflexivity|]. split; [apply mod_succ; exact KL|]. rewrite (Z.mod_small (t (Z.of_nat n))) by (apply (h_byte _ _ H); exact BI). rewrite <- (h_nth _ _ H (Z.of_nat n) BI). apply swap_holds; assumption.
Qed.
Lemma setup_ok scrap key : key <> [] -> length scrap = 1024%nat -> Forall byte scrap -> at_byte (arc4_setup scrap key) (snd (schedule key 256)) 1024.
Proof.
  intros NE LS BS. unfold arc4_setup. destruct (turns_ok key 256 NE (le_n _)) as (k & m & E & _ & H). rewrite E.
  revert H. generalize (snd (schedule key 256)). intros t0 H. clear E. destruct (crypt_ok t0 scrap (mkarc 0 0 m) 0) as (c' & o & C & A & _); [split; [reflexivity|reflexivity|exact H]|exact BS|]. rewrite C. cbn [snd]. rewrite LS in A. exact A.
Qed.
Lemma pieces_ok t0 ps : forall c n, at_byte c t0 n -> (forall p, In p ps -> Forall byte p) ->
  length (concat (arc4_pieces c ps)) = length (concat ps) /\
  forall k, (k < length (concat ps))%nat -> nth k (concat (arc4_pieces c ps)) 0 = Z.lxor (nth k (concat ps) 0) (out t0 (n + k)) /\ byte (out t0 (n + k)).
Proof.
  induction ps as [|p ps IH]; intros c n A B; cbn [arc4_pieces concat length]; [split; [reflexivity|lia]|].
  destruct (crypt_ok t0 p c n A (B p (or_introl eq_refl))) as (c1 & o & E & A1 & LO & O). rewrite E. destruct (IH c1 (n + length p)%nat A1 ltac:(intros q Q; apply B; right; exact Q)) as [L N]. cbn [concat]. split; [rewrite !app_length; lia|].
  intros k K. rewrite app_length in K. destruct (Nat.lt_ge_cases k (length p)) as [KP|KP]; [rewrite !app_nth1 by lia; apply O; exact KP|]. rewrite !app_nth2, LO by lia. destruct (N (k - length p)%nat ltac:(lia)) as [X Y].
  replace (n + length p + (k - length p))%nat with (n + k)%nat in X, Y by lia. auto.
Qed.

Definition bytes (l : list Z) : Prop := forall b, In b l -> 0 <= b < 256.
(** Enciphering in any pieces combines the message with the published stream of
    the key, from byte 1024 on. *)
Theorem c63_stream : forall scrap key ps, key <> [] -> length scrap = 1024%nat -> bytes scrap -> (forall p, In p ps -> bytes p) ->
  let code := concat (arc4_pieces (arc4_setup scrap key) ps) in
  length code = length (concat ps) /\ forall k, (k < length (concat ps))%nat -> nth k code 0 = Z.lxor (nth k (concat ps) 0) (stream key (1024 + k)).
Proof.
  intros scrap key ps NE LS BS BP code. destruct (pieces_ok _ ps _ _ (setup_ok scrap key NE LS (proj2 (Forall_forall _ _) BS))) as [L N]; [intros p P; apply Forall_forall; exact (BP p P)|]. split; [exact L|]. intros k K. apply (N k K).
Qed.
(** Deciphering with the same key, in any other pieces, gives the message back. *)
Theorem c63_back : forall scrap scrap' key ps qs, key <> [] -> length scrap = 1024%nat -> length scrap' = 1024%nat -> bytes scrap -> bytes scrap' -> (forall p, In p ps -> bytes p) ->
  concat qs = concat (arc4_pieces (arc4_setup scrap key) ps) -> concat (arc4_pieces (arc4_setup scrap' key) qs) = concat ps.
Proof.
  intros scrap scrap' key ps qs NE LS LS' BS BS' BP E. set (t0 := snd (schedule key 256)).
  destruct (pieces_ok t0 ps _ _ (setup_ok scrap key NE LS (proj2 (Forall_forall _ _) BS))) as [L N]; [intros p P; apply Forall_forall; exact (BP p P)|]. rewrite <- E in L, N.
  assert (BM : Forall byte (concat ps)) by (apply Forall_forall; intros b I; apply in_concat in I as (p & P & Q); exact (BP p P b Q)).
  assert (BC : Forall byte (concat qs)).
  { apply Forall_forall. intros b I. apply (In_nth _ _ 0) in I as (k & K & <-). rewrite L in K. destruct (N k K) as [-> BO]. rewrite <- lxor_byte; [apply mod_byte| |exact BO]. rewrite Forall_forall in BM. apply BM. apply nth_In. exact K. }
  destruct (pieces_ok t0 qs _ _ (setup_ok scrap' key NE LS' (proj2 (Forall_forall _ _) BS'))) as [L2 N2]; [intros q Q; apply Forall_forall; intros b I; rewrite Forall_forall in BC; apply BC; apply in_concat; eauto|].
  apply (nth_ext _ _ 0 0); [lia|]. intros k K. rewrite L2 in K. destruct (N2 k K) as [-> _]. destruct (N k ltac:(lia)) as [-> _]. rewrite Z.lxor_assoc, Z.lxor_nilpotent, Z.lxor_0_r. reflexivity.
Qed.
Example arc4_demo : let m := [[1; 2; 3]; [250; 251]] in let c := arc4_setup (repeat 7 1024) [1; 35; 69; 103] in
  arc4_pieces c m <> m /\ arc4_pieces (arc4_setup (repeat 9 1024) [1; 35; 69; 103]) [concat (arc4_pieces c m)] = [concat m].
Proof. cbv zeta. split; [vm_compute; discriminate|vm_compute; reflexivity]. Qed.
(** Test vector of the publication, the stream taken from its start. *)
Example stream_demo : map (fun k => Z.lxor (nth k [1; 35; 69; 103; 137; 171; 205; 239] 0) (stream [1; 35; 69; 103; 137; 171; 205; 239] k)) (seq 0 8) = [0x75; 0xB7; 0x87; 0x80; 0x99; 0xE0; 0xC5; 0x96].
Proof. vm_compute. reflexivity. Qed.

Print Assumptions c63_stream.
Print Assumptions c63_back.
