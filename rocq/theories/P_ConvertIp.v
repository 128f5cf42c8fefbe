(** * Positions of records: level, time and third value (convert_ip123.f90)

    Properties C54 and C55. *)
From Coq Require Import ZArith List Bool Lia Reals Lra.
From Flocq Require Import Core BinarySingleNaN.
From Verif Require Import Bits Flo FloatField FloatDouble Convip ConvipFacts ConvipMain ConvipBack ConvipTrip ConvipSame ConvipLevel ConvipOld P_Convip ConvertIp.
Import ListNotations.
Open Scope Z_scope.

(** ** Specification *)

(** A number that stands for [p] after coding and decoding (C50). *)
Definition close (k : Z) (p q : f32) : Prop :=
  is_finite q = true /\ ((Rabs (r32 q - r32 p) <= allowance k (r32 p))%R \/ at_bottom k (r32 p) (r32 q)).
(** Levels of the atmosphere. *)
Definition air_kind (k : Z) : Prop := 0 <= k <= 6.
(** Kinds of level. *)
Definition level_kind (k : Z) : Prop := 0 <= k <= 7 \/ k = 21.
(** [l] is not higher in the atmosphere than [h]. *)
Definition below (k : Z) (l h : f32) : Prop :=
  (k = 0 \/ k = 4 \/ k = 21 -> (r32 l <= r32 h)%R) /\ (k = 1 \/ k = 2 \/ k = 7 -> (r32 h <= r32 l)%R).
(** [l] and [h] are [a] and [b], the lower first when the kind tells which it is. *)
Definition layer (k : Z) (a b l h : f32) : Prop :=
  (l = a /\ h = b \/ l = b /\ h = a) /\ below k l h /\ (k = 3 \/ k = 5 \/ k = 6 -> l = a).
(** [l] and [h] are [a] and [b], the earlier first. *)
Definition period (a b l h : f32) : Prop := (l = a /\ h = b \/ l = b /\ h = a) /\ (r32 l <= r32 h)%R.
(** A level that has a code of the new style. *)
Definition new_level (k : Z) (p : f32) : Prop := level k p /\ (k = 2 -> r32 p <> 0%R).

(** ** Codes *)
Lemma high_code k p q : way k p q -> new_kind k -> (k = 2 -> r32 p <> 0%R) -> is_finite p = true -> exists ip, to_ip true p k = Some ip /\ 32767 < ip.
Proof.
  intros W K N F.
  assert (H : exists m e t, coded p k m e t) by (destruct W as [-> Z|m e t|m e t|m e t|m e t]; [elim N; auto|exists m, e, t; assumption..]).
  destruct H as (m & e & t & TO & G & M & _). exists (ip_of (code (scaled k (r32 p)) m) e (k mod 16)). rewrite to_ip_plain by (auto; destruct (Z.eq_dec k 2); auto). split; [exact TO|].
  set (s := scaled k (r32 p)) in *. pose proof (coded_m (limit2 s) m e (Rabs s) t G M) as [MB TM]. destruct G as (E & _ & _ & TE & _).
  assert (KM : 0 <= k mod 16) by (apply Z.mod_pos_bound; lia).
  assert (EM : e = 0 -> limit2 s <= m). { intros ->. destruct TE as [TE|TE]; [|discriminate]. assert (limit2 s - 1 < m); [|lia]. apply lt_IZR. rewrite minus_IZR. lra. }
  assert (C : 0 <= code s m /\ (0 < e \/ 32767 < code s m)).
  { unfold code, limit2 in *. destruct (Rle_bool_spec 0 s) as [P|P]; [|lia]. split; [lia|]. assert (e = 0 \/ 0 < e) as [->|?] by lia; [right; specialize (EM eq_refl); lia|auto]. }
  unfold ip_of. destruct C as [C1 [C2|C2]]; lia.
Qed.

Lemma code_level k p : level k p -> exists ip q, to_ip true p k = Some ip /\ from_ip ip = (q, k) /\ close k p q /\ 0 <= ip /\ ((k = 2 -> r32 p <> 0%R) -> 32768 <= ip) /\ (k = 2 -> r32 p = 0%R -> ip = 0).
Proof.
  intros L. destruct (c50_accuracy k p L) as (ip & q & E & IP & D & C). rewrite encodes_iff in E. rewrite decodes_iff in D. exists ip, q. split; [exact E|]. split; [exact D|]. split; [exact C|]. split; [lia|]. apply level_in in L. destruct L as (K & R & V). split.
  - intros N. destruct (level_ok k p K R V) as (ip' & q' & _ & W & _). destruct (high_code k p q' W K N (proj1 R)) as (ip2 & E2 & H). assert (ip2 = ip) by congruence. lia.
  - intros -> Z. pose proof (to_ip_zero p (proj1 R) Z). congruence.
Qed.
Lemma code_new k p : new_level k p -> exists ip q, to_ip true p k = Some ip /\ from_ip ip = (q, k) /\ close k p q /\ 32768 <= ip.
Proof. intros [L N]. destruct (code_level k p L) as (ip & q & A & B & C & _ & D & _). exists ip, q. auto. Qed.
Lemma code_order k p1 ip1 q1 p2 ip2 q2 : level k p1 -> level k p2 -> to_ip true p1 k = Some ip1 -> from_ip ip1 = (q1, k) -> to_ip true p2 k = Some ip2 -> from_ip ip2 = (q2, k) -> (r32 p1 <= r32 p2)%R -> (r32 q1 <= r32 q2)%R.
Proof. intros L1 L2 A1 B1 A2 B2. apply encodes_iff in A1, A2. apply decodes_iff in B1, B2. exact (c52_order k p1 ip1 q1 p2 ip2 q2 L1 L2 A1 B1 A2 B2). Qed.

Lemma level_fin k p : level k p -> is_finite p = true. Proof. intros (a & b & _ & F & _). exact F. Qed.
Lemma level_old k p : level k p -> is_invalid_kind k = false. Proof. intros (a & b & L & _). destruct L; reflexivity. Qed.
Lemma level_m1 k p : level k p -> (k =? -1) = false. Proof. intros (a & b & L & _). destruct L; reflexivity. Qed.
Lemma ltb_R x y : is_finite x = true -> is_finite y = true -> f32_ltb x y = Rlt_bool (r32 x) (r32 y). Proof. intros F G. apply f32_ltb_ok; assumption. Qed.
Lemma neb_R x y : is_finite x = true -> is_finite y = true -> f32_neb x y = negb (Req_bool (r32 x) (r32 y)).
Proof. intros F G. unfold f32_neb, f32_eqb. rewrite Beqb_correct by assumption. reflexivity. Qed.
Lemma neb_refl x : is_finite x = true -> f32_neb x x = false. Proof. intros F. rewrite neb_R, Req_bool_true by auto. reflexivity. Qed.
Lemma neb_diff x y : is_finite x = true -> is_finite y = true -> r32 x <> r32 y -> f32_neb x y = true. Proof. intros F G N. rewrite neb_R, Req_bool_false by auto. reflexivity. Qed.
Lemma air_level k : air_kind k -> is_level k = true /\ is_invalid_kind k = false /\ (6 <? k) = false /\ (k <=? 6) = true.
Proof. intros A. unfold air_kind in A. assert (k = 0 \/ k = 1 \/ k = 2 \/ k = 3 \/ k = 4 \/ k = 5 \/ k = 6) as C by lia. repeat (destruct C as [->|C]; [repeat split|]). subst. repeat split. Qed.

(** ** C54: EncodeIp and DecodeIp *)

(** A level, a time and a third value come back as they are. *)
Theorem c54_plain k1 p1 t k3 p3 h3 : air_kind k1 -> level k1 p1 -> level 10 t -> new_level k3 p3 -> k3 <> 10 -> k3 <> k1 ->
  exists ip1 ip2 ip3 s q1 q2 q3, encode_ip_0 (FIP p1 p1 k1) (FIP t t 10) (FIP p3 h3 k3) = Some (0, (ip1, ip2, ip3)) /\
    decode_ip_0 ip1 ip2 ip3 = Some (s, Some (FIP q1 q1 k1, FIP q2 q2 10, FIP q3 q3 k3)) /\
    close k1 p1 q1 /\ close 10 t q2 /\ close k3 p3 q3 /\ (s = 0 \/ s = 2 /\ k1 = 2 /\ r32 p1 = 0%R).
Proof.
  intros A L1 L2 L3 N10 N1. destruct (code_level k1 p1 L1) as (ip1 & q1 & E1 & D1 & C1 & P1 & H1 & Z1). destruct (code_new 10 t ltac:(split; [exact L2|discriminate])) as (ip2 & q2 & E2 & D2 & C2 & H2). destruct (code_new k3 p3 L3) as (ip3 & q3 & E3 & D3 & C3 & H3).
  pose proof (air_level k1 A) as (A1 & A2 & A3 & A4). destruct L3 as [L3 _]. pose proof (level_old k3 p3 L3) as O3.
  exists ip1, ip2, ip3, (if ip1 <? 32768 then 2 else 0), q1, q2, q3. split.
  { unfold encode_ip_0. cbn [lo hi kd]. rewrite A1, A2. change (is_invalid_kind 10) with false. cbn [orb negb]. rewrite !neb_refl by (eapply level_fin; eassumption). cbn [andb orb negb]. change (10 =? 10) with true. cbn [negb]. rewrite O3. cbn [fst snd]. rewrite E1. cbn [bind]. rewrite E2. cbn [bind]. rewrite E3. reflexivity. }
  split.
  { unfold decode_ip_0. rewrite (proj2 (Z.ltb_ge ip1 0)), (proj2 (Z.ltb_ge ip2 0)), (proj2 (Z.ltb_ge ip3 0)) by lia. cbn [orb]. rewrite D1, A1. cbn [negb]. rewrite D2, (proj2 (Z.ltb_ge ip2 32768)) by lia. change (10 =? 10) with true. cbn [negb andb]. rewrite D3, (proj2 (Z.ltb_ge ip3 32768)) by lia. rewrite (level_m1 k3 p3 L3). cbn [negb andb bind].
    rewrite (proj2 (Z.eqb_neq k3 10)) by exact N10. cbn [bind]. rewrite (proj2 (Z.eqb_neq k1 k3)) by congruence. rewrite andb_false_r, A3. cbn [bind]. reflexivity. }
  split; [exact C1|]. split; [exact C2|]. split; [exact C3|]. destruct (Z.ltb_spec ip1 32768); [|auto]. right. split; [reflexivity|]. destruct (Z.eq_dec k1 2) as [->|NE]; [|specialize (H1 ltac:(intros; congruence)); lia]. split; [reflexivity|]. destruct (Req_dec (r32 p1) 0) as [|NZ]; [assumption|]. specialize (H1 ltac:(auto)); lia.
Qed.
Print Assumptions c54_plain.
Example c54_demo : air_kind 2 /\ level 2 (f32_of 850) /\ level 10 (f32_of 24) /\ new_level 3 (f32_of 7) /\ encode_ip_0 (FIP (f32_of 850) (f32_of 850) 2) (FIP (f32_of 24) (f32_of 24) 10) (FIP (f32_of 7) (f32_of 7) 3) = Some (0, (41744464, 176400768, 60468832)).
Proof.
  split; [unfold air_kind; lia|]. split; [exact (proj1 c50_demo)|]. destruct (f32_of_ok 24 ltac:(lia)) as [A1 B1]. destruct (f32_of_ok 7 ltac:(lia)) as [A2 B2]. split; [|split; [split; [|discriminate]|vm_compute; reflexivity]].
  - exists 0, 10000000000. rewrite A1. split; [constructor|]. split; [exact B1|]. split; [lra|left; lra].
  - exists (-480000000), 10000000000. rewrite A2. split; [constructor|]. split; [exact B2|]. split; [lra|left; lra].
Qed.

Lemma kind_turn k : air_kind k -> (ascending k = true /\ descending k = false /\ (k = 0 \/ k = 4)) \/ (ascending k = false /\ descending k = true /\ (k = 1 \/ k = 2)) \/ (ascending k = false /\ descending k = false /\ (k = 3 \/ k = 5 \/ k = 6)).
Proof. intros A. unfold air_kind in A. assert (k = 0 \/ k = 1 \/ k = 2 \/ k = 3 \/ k = 4 \/ k = 5 \/ k = 6) as C by lia. repeat (destruct C as [->|C]; [cbn; auto 10|]). subst. cbn. auto 10. Qed.

(** A layer between two levels comes back, the lower level first. *)
Theorem c54_levels k a b t rp3 : air_kind k -> new_level k a -> new_level k b -> r32 a <> r32 b -> level 10 t ->
  exists ip1 ip2 ip3 l h ql qh q2, encode_ip_0 (FIP a b k) (FIP t t 10) rp3 = Some (0, (ip1, ip2, ip3)) /\
    decode_ip_0 ip1 ip2 ip3 = Some (0, Some (FIP ql qh k, FIP q2 q2 10, FIP (f32_of 0) (f32_of 0) (-1))) /\
    layer k a b l h /\ close k l ql /\ close k h qh /\ close 10 t q2 /\ below k ql qh.
Proof.
  intros A La Lb NE L2. pose proof (air_level k A) as (A1 & A2 & A3 & A4). pose proof (level_fin k a (proj1 La)) as Fa. pose proof (level_fin k b (proj1 Lb)) as Fb. pose proof (level_fin 10 t L2) as Ft.
  destruct (code_new 10 t ltac:(split; [exact L2|discriminate])) as (ip2 & q2 & E2 & D2 & C2 & H2).
  (* the levels as they are given to CONVIP_plus *)
  assert (G : exists l h, layer k a b l h /\ new_level k l /\ new_level k h /\
    forall ip1 ip3, to_ip true l k = Some ip1 -> to_ip true h k = Some ip3 -> encode_ip_0 (FIP a b k) (FIP t t 10) rp3 = Some (0, (ip1, ip2, ip3))).
  { set (turn := f32_ltb b a && ascending k || f32_ltb a b && descending k). exists (if turn then b else a), (if turn then a else b).
    assert (TB : turn = (Rlt_bool (r32 b) (r32 a) && ascending k || Rlt_bool (r32 a) (r32 b) && descending k)) by (unfold turn; rewrite !ltb_R by assumption; reflexivity).
    split; [|split; [destruct turn; assumption|split; [destruct turn; assumption|]]].
    - unfold layer, below. clearbody turn. destruct (kind_turn k A) as [(T1 & T2 & TK)|[(T1 & T2 & TK)|(T1 & T2 & TK)]]; rewrite T1, T2, ?andb_true_r, ?andb_false_r, ?orb_false_r, ?orb_false_l in TB; subst turn.
      + destruct (Rlt_bool_spec (r32 b) (r32 a)); (split; [auto|]; split; [split; intros; [lra|lia]|intros; lia]).
      + destruct (Rlt_bool_spec (r32 a) (r32 b)); (split; [auto|]; split; [split; intros; [lia|lra]|intros; lia]).
      + split; [auto|]. split; [split; intros; lia|reflexivity].
    - intros ip1 ip3 E1 E3. unfold encode_ip_0. cbn [lo hi kd]. rewrite A1, A2. change (is_invalid_kind 10) with false. cbn [orb negb]. rewrite (neb_diff b a) by auto. rewrite (neb_refl t Ft). cbn [andb orb negb]. change (10 =? 10) with true. cbn [negb]. fold turn. destruct turn; cbn [fst snd]; rewrite E1; cbn [bind]; rewrite E2; cbn [bind]; rewrite E3; reflexivity. }
  destruct G as (l & h & LY & Ll & Lh & EN). destruct (code_new k l Ll) as (ip1 & ql & E1 & D1 & C1 & H1). destruct (code_new k h Lh) as (ip3 & qh & E3 & D3 & C3 & H3). exists ip1, ip2, ip3, l, h, ql, qh, q2.
  assert (BL : below k ql qh).
  { destruct LY as (_ & [B1 B2] & _). split; intros X; [specialize (B1 X); exact (code_order k l ip1 ql h ip3 qh (proj1 Ll) (proj1 Lh) E1 D1 E3 D3 B1)|specialize (B2 X); exact (code_order k h ip3 qh l ip1 ql (proj1 Lh) (proj1 Ll) E3 D3 E1 D1 B2)]. }
  split; [exact (EN ip1 ip3 E1 E3)|]. split; [|repeat (split; [assumption|]); assumption].
  unfold decode_ip_0. rewrite (proj2 (Z.ltb_ge ip1 0)), (proj2 (Z.ltb_ge ip2 0)), (proj2 (Z.ltb_ge ip3 0)) by lia. cbn [orb]. rewrite D1, A1. cbn [negb]. rewrite (proj2 (Z.ltb_ge ip1 32768)) by lia. rewrite D2, (proj2 (Z.ltb_ge ip2 32768)) by lia. change (10 =? 10) with true. cbn [negb andb]. rewrite D3, (proj2 (Z.ltb_ge ip3 32768)) by lia. rewrite (level_m1 k l (proj1 Ll)). cbn [negb andb bind].
  rewrite (proj2 (Z.eqb_neq k 10)) by (unfold air_kind in A; lia). cbn [bind]. rewrite Z.eqb_refl, A4. cbn [andb].
  assert (NT : f32_ltb qh ql && ascending k || f32_ltb ql qh && descending k = false).
  { rewrite !ltb_R by (apply C1 || apply C3). destruct BL as [B1 B2]. destruct (kind_turn k A) as [(T1 & T2 & TK)|[(T1 & T2 & TK)|(T1 & T2 & TK)]]; rewrite T1, T2, ?andb_true_r, ?andb_false_r, ?orb_false_r, ?orb_false_l; [apply Rlt_bool_false, B1; lia|apply Rlt_bool_false, B2; lia|reflexivity]. }
  rewrite NT, A3. cbn [bind]. reflexivity.
Qed.
Print Assumptions c54_levels.
Example c54_levels_demo : new_level 2 (f32_of 500) /\ new_level 2 (f32_of 850) /\ encode_ip_0 (FIP (f32_of 500) (f32_of 850) 2) (FIP (f32_of 24) (f32_of 24) 10) (FIP (f32_of 0) (f32_of 0) (-1)) = Some (0, (41744464, 176400768, 41394464)).
Proof.
  destruct c52_demo as (A & B & _). destruct (f32_of_ok 500 ltac:(lia)) as [X1 _]. destruct (f32_of_ok 850 ltac:(lia)) as [X2 _]. split; [split; [exact A|intros _; rewrite X1; lra]|]. split; [split; [exact B|intros _; rewrite X2; lra]|]. vm_compute; reflexivity.
Qed.

(** A period comes back, the earlier time first. *)
Theorem c54_times k p a b rp3 : air_kind k -> level k p -> level 10 a -> level 10 b -> r32 a <> r32 b ->
  exists ip1 ip2 ip3 s l h q1 ql qh, encode_ip_0 (FIP p p k) (FIP a b 10) rp3 = Some (0, (ip1, ip2, ip3)) /\
    decode_ip_0 ip1 ip2 ip3 = Some (s, Some (FIP q1 q1 k, FIP ql qh 10, FIP (f32_of 0) (f32_of 0) (-1))) /\
    period a b l h /\ close k p q1 /\ close 10 l ql /\ close 10 h qh /\ (r32 ql <= r32 qh)%R /\ (s = 0 \/ s = 2 /\ k = 2 /\ r32 p = 0%R).
Proof.
  intros A L1 La Lb NE. pose proof (air_level k A) as (A1 & A2 & A3 & A4). pose proof (level_fin 10 a La) as Fa. pose proof (level_fin 10 b Lb) as Fb. pose proof (level_fin k p L1) as Fp.
  destruct (code_level k p L1) as (ip1 & q1 & E1 & D1 & C1 & P1 & H1 & Z1).
  assert (G : exists l h, period a b l h /\ level 10 l /\ level 10 h /\ forall ip2 ip3, to_ip true h 10 = Some ip2 -> to_ip true l 10 = Some ip3 -> encode_ip_0 (FIP p p k) (FIP a b 10) rp3 = Some (0, (ip1, ip2, ip3))).
  { set (turn := f32_ltb a b). exists (if turn then a else b), (if turn then b else a).
    assert (TB : turn = Rlt_bool (r32 a) (r32 b)) by (unfold turn; rewrite ltb_R by assumption; reflexivity).
    split; [|split; [destruct turn; assumption|split; [destruct turn; assumption|]]].
    - unfold period. rewrite TB. destruct (Rlt_bool_spec (r32 a) (r32 b)); (split; [auto|lra]).
    - intros ip2 ip3 E2 E3. unfold encode_ip_0. cbn [lo hi kd]. rewrite A1, A2. change (is_invalid_kind 10) with false. cbn [orb negb]. rewrite (neb_refl p Fp), (neb_diff b a) by auto. cbn [andb orb negb]. change (10 =? 10) with true. cbn [negb]. fold turn. rewrite E1. cbn [bind]. destruct turn; cbn [fst snd]; rewrite E2; cbn [bind]; rewrite E3; reflexivity. }
  destruct G as (l & h & PE & Ll & Lh & EN). destruct (code_new 10 l ltac:(split; [exact Ll|discriminate])) as (ip3 & ql & E3 & D3 & C3 & H3). destruct (code_new 10 h ltac:(split; [exact Lh|discriminate])) as (ip2 & qh & E2 & D2 & C2 & H2).
  assert (OR : (r32 ql <= r32 qh)%R) by exact (code_order 10 l ip3 ql h ip2 qh Ll Lh E3 D3 E2 D2 (proj2 PE)).
  (* equal codes leave the pair as it is *)
  assert (SW : exists ql' qh', (if f32_ltb ql qh then (ql, qh) else (qh, ql)) = (ql', qh') /\ close 10 l ql' /\ close 10 h qh' /\ (r32 ql' <= r32 qh')%R).
  { rewrite ltb_R by (apply C3 || apply C2). destruct (Rlt_bool_spec (r32 ql) (r32 qh)) as [X|X]; [exists ql, qh; auto|]. exists qh, ql. assert (EQ : r32 ql = r32 qh) by lra. destruct C3 as [F3 C3]. destruct C2 as [F2 C2]. split; [reflexivity|]. unfold close. rewrite EQ in *. split; [split; [exact F2|exact C3]|]. split; [split; [exact F3|exact C2]|lra]. }
  destruct SW as (ql' & qh' & SW & CL & CH & OR'). exists ip1, ip2, ip3, (if ip1 <? 32768 then 2 else 0), l, h, q1, ql', qh'. split; [exact (EN ip2 ip3 E2 E3)|]. split.
  { unfold decode_ip_0. rewrite (proj2 (Z.ltb_ge ip1 0)), (proj2 (Z.ltb_ge ip2 0)), (proj2 (Z.ltb_ge ip3 0)) by lia. cbn [orb]. rewrite D1, A1. cbn [negb]. rewrite D2, (proj2 (Z.ltb_ge ip2 32768)) by lia. change (10 =? 10) with true. cbn [negb andb]. rewrite D3, (proj2 (Z.ltb_ge ip3 32768)) by lia. change (10 =? -1) with false. cbn [negb andb bind]. change (10 =? 10) with true. cbv iota. cbn [bind]. rewrite SW, A3. cbn [bind]. reflexivity. }
  split; [exact PE|]. split; [exact C1|]. split; [exact CL|]. split; [exact CH|]. split; [exact OR'|]. destruct (Z.ltb_spec ip1 32768); [|auto]. right. split; [reflexivity|]. destruct (Z.eq_dec k 2) as [->|NK]; [|specialize (H1 ltac:(intros; congruence)); lia]. split; [reflexivity|]. destruct (Req_dec (r32 p) 0) as [|NZ]; [assumption|]. specialize (H1 ltac:(auto)); lia.
Qed.
Print Assumptions c54_times.

(** EncodeIp refuses what is not a level and a time, or two ranges, or a third
    value of a negative kind; DecodeIp refuses negative integers. *)
Theorem c54_refused rp1 rp2 rp3 :
  ~ level_kind (kd rp1) \/ kd rp2 <> 10 \/
  (is_finite (lo rp1) = true /\ is_finite (hi rp1) = true /\ is_finite (lo rp2) = true /\ is_finite (hi rp2) = true /\
   (r32 (hi rp1) <> r32 (lo rp1) /\ r32 (hi rp2) <> r32 (lo rp2) \/ r32 (hi rp1) = r32 (lo rp1) /\ r32 (hi rp2) = r32 (lo rp2) /\ kd rp3 < 0)) ->
  encode_ip_0 rp1 rp2 rp3 = Some (64, (-1, -1, -1)).
Proof.
  intros H. unfold encode_ip_0. destruct (is_invalid_kind (kd rp1) || is_invalid_kind (kd rp2)); [reflexivity|]. destruct (is_level (kd rp1)) eqn:IL; cbn [negb]; [|reflexivity].
  assert (LK : level_kind (kd rp1)). { unfold is_level in IL. apply existsb_exists in IL as (x & IX & EX). apply Z.eqb_eq in EX. unfold level_kind. cbn in IX. lia. }
  destruct H as [H|[H|(F1 & F2 & F3 & F4 & H)]]; [contradiction| |].
  - rewrite (proj2 (Z.eqb_neq _ _) H). reflexivity.
  - destruct (kd rp2 =? 10); cbn [negb]; [|reflexivity]. destruct H as [[H1 H2]|(H1 & H2 & H3)].
    + rewrite !neb_diff by auto. reflexivity.
    + assert (X : is_invalid_kind (kd rp3) = true) by (unfold is_invalid_kind; rewrite (proj2 (Z.ltb_lt _ _) H3); reflexivity). rewrite !neb_R, !Req_bool_true by auto. cbn [negb andb orb]. rewrite X. reflexivity.
Qed.
Print Assumptions c54_refused.
Theorem c54_decode_refused ip1 ip2 ip3 : ip1 < 0 \/ ip2 < 0 \/ ip3 < 0 -> decode_ip_0 ip1 ip2 ip3 = Some (64, None) /\ decode_ip_2 ip1 ip2 ip3 = (64, None).
Proof.
  intros H. unfold decode_ip_0, decode_ip_2. assert (E : (ip1 <? 0) || (ip2 <? 0) || (ip3 <? 0) = true). { rewrite !orb_true_iff, !Z.ltb_lt. lia. } rewrite E. split; reflexivity.
Qed.
Print Assumptions c54_decode_refused.

Lemma status_of {A} (d : option (Z * A)) s : option_map fst d = Some s -> exists r, d = Some (s, r).
Proof. destruct d as [[s' r]|]; cbn; [intros H; exists r; congruence|discriminate]. Qed.
(** Depths are encoded; decoding gives an error. *)
Theorem c54_depth_refuted : exists ip1 ip2 ip3 r, level 7 (f32_of 100) /\ encode_ip_0 (FIP (f32_of 100) (f32_of 100) 7) (FIP (f32_of 24) (f32_of 24) 10) (FIP (f32_of 7) (f32_of 7) 3) = Some (0, (ip1, ip2, ip3)) /\ decode_ip_0 ip1 ip2 ip3 = Some (64, Some r).
Proof.
  exists 124880544, 176400768, 60468832. assert (R : exists r, decode_ip_0 124880544 176400768 60468832 = Some (64, Some r)).
  { assert (S : option_map (fun x => (fst x, match snd x with Some _ => true | None => false end)) (decode_ip_0 124880544 176400768 60468832) = Some (64, true)) by (vm_compute; reflexivity). destruct (decode_ip_0 _ _ _) as [[s [r|]]|]; cbn in S; try discriminate. exists r. congruence. }
  destruct R as [r R]. exists r. split; [|split; [vm_compute; reflexivity|exact R]]. destruct (f32_of_ok 100 ltac:(lia)) as [A B]. exists 0, 20000. rewrite A. split; [constructor|]. split; [exact B|]. split; [lra|left; lra].
Qed.
Print Assumptions c54_depth_refuted.
(** The layer from 1000 mb to 0 mb is encoded; decoding uses variables without a
    value, as it does for any old code in ip2 or ip3. *)
Theorem c54_top_refuted : exists ip1 ip2 ip3, level 2 (f32_of 1000) /\ level 2 (f32_of 0) /\ encode_ip_0 (FIP (f32_of 1000) (f32_of 0) 2) (FIP (f32_of 24) (f32_of 24) 10) (FIP (f32_of 0) (f32_of 0) (-1)) = Some (0, (ip1, ip2, ip3)) /\ decode_ip_0 ip1 ip2 ip3 = None.
Proof.
  exists 39945888, 176400768, 0. split; [|split; [|split; [vm_compute; reflexivity|vm_compute; reflexivity]]].
  - destruct (f32_of_ok 1000 ltac:(lia)) as [A B]. exists 0, 1100. rewrite A. split; [constructor|]. split; [exact B|]. split; [lra|left; lra].
  - destruct (f32_of_ok 0 ltac:(lia)) as [A B]. exists 0, 1100. rewrite A. split; [constructor|]. split; [exact B|]. split; [lra|left; lra].
Qed.
Print Assumptions c54_top_refuted.
Theorem c54_old_refuted : decode_ip_0 41744464 24 60468832 = None /\ decode_ip_0 41744464 176400768 7 = None.
Proof. split; vm_compute; reflexivity. Qed.
Print Assumptions c54_old_refuted.
(** A third value in hours is taken for the other end of a period. *)
Theorem c54_third_refuted : exists ip1 ip2 ip3 s rp1 rp2 rp3, encode_ip_0 (FIP (f32_of 850) (f32_of 850) 2) (FIP (f32_of 24) (f32_of 24) 10) (FIP (f32_of 12) (f32_of 12) 10) = Some (0, (ip1, ip2, ip3)) /\
  decode_ip_0 ip1 ip2 ip3 = Some (s, Some (rp1, rp2, rp3)) /\ f32_eqb (lo rp2) (f32_of 12) = true /\ f32_eqb (hi rp2) (f32_of 24) = true /\ kd rp3 = -1.
Proof.
  exists 41744464, 176400768, 176280768. assert (S : match decode_ip_0 41744464 176400768 176280768 with Some (s, Some (rp1, rp2, rp3)) => f32_eqb (lo rp2) (f32_of 12) && f32_eqb (hi rp2) (f32_of 24) && (kd rp3 =? -1) | _ => false end = true) by (vm_compute; reflexivity).
  destruct (decode_ip_0 _ _ _) as [[s [[[rp1 rp2] rp3]|]]|]; try discriminate. apply andb_true_iff in S as [S S3]. apply andb_true_iff in S as [S1 S2]. exists s, rp1, rp2, rp3. split; [vm_compute; reflexivity|]. split; [reflexivity|]. split; [exact S1|]. split; [exact S2|apply Z.eqb_eq; exact S3].
Qed.
Print Assumptions c54_third_refuted.

(** ** C55: ConvertPKtoIP and ConvertIPtoPK *)
Lemma level_level k : level_kind k -> is_level k = true /\ is_invalid_kind k = false /\ (k =? 10) = false /\ k <> 10 /\
  ((ascending k = true /\ descending k = false /\ (k = 0 \/ k = 4 \/ k = 21)) \/ (ascending k = false /\ descending k = true /\ (k = 1 \/ k = 2 \/ k = 7)) \/ (ascending k = false /\ descending k = false /\ (k = 3 \/ k = 5 \/ k = 6))).
Proof. intros A. unfold level_kind in A. assert (k = 0 \/ k = 1 \/ k = 2 \/ k = 3 \/ k = 4 \/ k = 5 \/ k = 6 \/ k = 7 \/ k = 21) as C by lia. repeat (destruct C as [->|C]; [repeat split; try discriminate; cbn; auto 10|]). subst. repeat split; try discriminate; cbn; auto 10. Qed.

(** The two ends of a range as they are decoded. *)
Definition in_order (k : Z) (x y : f32) : f32 * f32 := if ascending k && f32_ltb y x || descending k && f32_ltb x y then (y, x) else (x, y).
Lemma close_val k p q q' : close k p q -> is_finite q' = true -> r32 q' = r32 q -> close k p q'.
Proof. intros [_ C] F E. split; [exact F|]. rewrite E. exact C. Qed.
Lemma ends k a b ipa ipb qa qb : level_kind k -> level k a -> level k b -> to_ip true a k = Some ipa -> from_ip ipa = (qa, k) -> close k a qa -> to_ip true b k = Some ipb -> from_ip ipb = (qb, k) -> close k b qb ->
  exists l h ql qh, in_order k qa qb = (ql, qh) /\ layer k a b l h /\ close k l ql /\ close k h qh /\ below k ql qh.
Proof.
  intros LK La Lb Ea Da Ca Eb Db Cb. pose proof (code_order k a ipa qa b ipb qb La Lb Ea Da Eb Db) as O1. pose proof (code_order k b ipb qb a ipa qa Lb La Eb Db Ea Da) as O2. pose proof (proj1 Ca) as Fa. pose proof (proj1 Cb) as Fb.
  unfold in_order, layer, below. rewrite !ltb_R by assumption. destruct (level_level k LK) as (_ & _ & _ & _ & [(T1 & T2 & TK)|[(T1 & T2 & TK)|(T1 & T2 & TK)]]); rewrite T1, T2; cbn [andb orb]; rewrite ?orb_false_r.
  - destruct (Rlt_bool_spec (r32 qb) (r32 qa)) as [X|X].
    + exists b, a, qb, qa. assert (~ (r32 a <= r32 b)%R) by (intros Y; specialize (O1 Y); lra). split; [reflexivity|]. split; [split; [auto|split; [split; intros; [lra|lia]|intros; lia]]|]. split; [exact Cb|]. split; [exact Ca|]. split; intros; [lra|lia].
    + destruct (Rle_dec (r32 a) (r32 b)) as [Y|Y].
      * exists a, b, qa, qb. split; [reflexivity|]. split; [split; [auto|split; [split; intros; [lra|lia]|intros; lia]]|]. split; [exact Ca|]. split; [exact Cb|]. split; intros; [lra|lia].
      * assert (EQ : r32 qa = r32 qb) by (specialize (O2 ltac:(lra)); lra). exists b, a, qa, qb. split; [reflexivity|]. split; [split; [auto|split; [split; intros; [lra|lia]|intros; lia]]|]. split; [apply (close_val k b qb); assumption|]. split; [apply (close_val k a qa); auto|]. split; intros; [lra|lia].
  - destruct (Rlt_bool_spec (r32 qa) (r32 qb)) as [X|X].
    + exists b, a, qb, qa. assert (~ (r32 b <= r32 a)%R) by (intros Y; specialize (O2 Y); lra). split; [reflexivity|]. split; [split; [auto|split; [split; intros; [lia|lra]|intros; lia]]|]. split; [exact Cb|]. split; [exact Ca|]. split; intros; [lia|lra].
    + destruct (Rle_dec (r32 b) (r32 a)) as [Y|Y].
      * exists a, b, qa, qb. split; [reflexivity|]. split; [split; [auto|split; [split; intros; [lia|lra]|intros; lia]]|]. split; [exact Ca|]. split; [exact Cb|]. split; intros; [lia|lra].
      * assert (EQ : r32 qa = r32 qb) by (specialize (O1 ltac:(lra)); lra). exists b, a, qa, qb. split; [reflexivity|]. split; [split; [auto|split; [split; intros; [lia|lra]|intros; lia]]|]. split; [apply (close_val k b qb); assumption|]. split; [apply (close_val k a qa); auto|]. split; intros; [lia|lra].
  - exists a, b, qa, qb. split; [reflexivity|]. split; [split; [auto|split; [split; intros; lia|reflexivity]]|]. split; [exact Ca|]. split; [exact Cb|]. split; intros; lia.
Qed.

Lemma decode_2 k ip1 ip2 ip3 q1 k2 q2 k3 q3 : level_kind k -> from_ip ip1 = (q1, k) -> from_ip ip2 = (q2, k2) -> from_ip ip3 = (q3, k3) -> 0 <= ip1 -> 32768 <= ip2 -> 32768 <= ip3 -> k2 = 10 -> is_invalid_kind k3 = false ->
  decode_ip_2 ip1 ip2 ip3 = (if ip1 <? 32768 then 2 else 0, Some
    (let '(x, y) := if k =? k3 then in_order k q1 q3 else (q1, q3) in let '(u, v) := if k3 =? 10 then (if f32_ltb q2 y then (y, q2) else (q2, y)) else (q2, y) in ((x, k), (u, 10), (v, k3)))).
Proof.
  intros LK D1 D2 D3 H1 H2 H3 -> I3. destruct (level_level k LK) as (A1 & A2 & A3 & A4 & _). unfold decode_ip_2. rewrite (proj2 (Z.ltb_ge ip1 0)), (proj2 (Z.ltb_ge ip2 0)), (proj2 (Z.ltb_ge ip3 0)) by lia. cbn [orb]. rewrite D1. cbn [snd]. rewrite A3. rewrite D1, A2, A1. cbn [negb].
  rewrite (proj2 (Z.ltb_ge ip2 32768)), (proj2 (Z.ltb_ge ip3 32768)) by lia. rewrite D2. change (is_invalid_kind 10) with false. change (10 =? 10) with true. cbn [negb orb andb]. rewrite D3, I3, A3. cbn [andb]. rewrite (Z.eqb_sym 10 k3), andb_true_r.
  fold (in_order k q1 q3). destruct (k =? k3) eqn:KK.
  - destruct (in_order k q1 q3) as [x y]. destruct (k3 =? 10); [|destruct (ip1 <? 32768); reflexivity]. destruct (f32_ltb q2 y); destruct (ip1 <? 32768); reflexivity.
  - destruct (k3 =? 10); [|destruct (ip1 <? 32768); reflexivity]. destruct (f32_ltb q2 q3); destruct (ip1 <? 32768); reflexivity.
Qed.

Theorem c55_plain k1 p1 t k3 p3 : level_kind k1 -> level k1 p1 -> level 10 t -> new_level k3 p3 -> k3 <> 10 -> k3 <> k1 ->
  exists ip1 ip2 ip3 s q1 q2 q3, encode_ip_2 p1 k1 t 10 p3 k3 = Some (0, (ip1, ip2, ip3)) /\ decode_ip_2 ip1 ip2 ip3 = (s, Some ((q1, k1), (q2, 10), (q3, k3))) /\
    close k1 p1 q1 /\ close 10 t q2 /\ close k3 p3 q3 /\ (s = 0 \/ s = 2 /\ k1 = 2 /\ r32 p1 = 0%R).
Proof.
  intros LK L1 L2 L3 N10 N1. destruct (code_level k1 p1 L1) as (ip1 & q1 & E1 & D1 & C1 & P1 & H1 & Z1). destruct (code_new 10 t ltac:(split; [exact L2|discriminate])) as (ip2 & q2 & E2 & D2 & C2 & H2). destruct (code_new k3 p3 L3) as (ip3 & q3 & E3 & D3 & C3 & H3).
  destruct (level_level k1 LK) as (A1 & A2 & A3 & A4 & _). pose proof (level_old k3 p3 (proj1 L3)) as O3. exists ip1, ip2, ip3, (if ip1 <? 32768 then 2 else 0), q1, q2, q3. split.
  { unfold encode_ip_2. rewrite A2, O3, A1. change (is_invalid_kind 10) with false. change (is_level 10) with false. change (10 =? 10) with true. cbn [orb negb andb]. rewrite E1. cbn [bind]. rewrite E2. cbn [bind]. rewrite E3. cbn [bind]. rewrite A3, (proj2 (Z.eqb_neq k3 10)) by exact N10. reflexivity. }
  split. { rewrite (decode_2 k1 ip1 ip2 ip3 q1 10 q2 k3 q3) by (assumption || lia || reflexivity). rewrite (proj2 (Z.eqb_neq k1 k3)) by congruence. rewrite (proj2 (Z.eqb_neq k3 10)) by exact N10. reflexivity. }
  split; [exact C1|]. split; [exact C2|]. split; [exact C3|]. destruct (Z.ltb_spec ip1 32768); [|auto]. right. split; [reflexivity|]. destruct (Z.eq_dec k1 2) as [->|NE]; [|specialize (H1 ltac:(intros; congruence)); lia]. split; [reflexivity|]. destruct (Req_dec (r32 p1) 0) as [|NZ]; [assumption|]. specialize (H1 ltac:(auto)); lia.
Qed.
Print Assumptions c55_plain.
Example c55_demo : level_kind 7 /\ level 10 (f32_of 24) /\ encode_ip_2 (f32_of 100) 7 (f32_of 24) 10 (f32_of 7) 3 = Some (0, (124880544, 176400768, 60468832)).
Proof. split; [unfold level_kind; lia|]. split; [apply c54_demo|vm_compute; reflexivity]. Qed.

(** Two levels, in the first and third place or in the first and second, come
    back in the first and third place, the lower first. *)
Theorem c55_levels k a b t : level_kind k -> new_level k a -> new_level k b -> level 10 t ->
  exists ipa ipt ipb l h ql qh q2, encode_ip_2 a k t 10 b k = Some (0, (ipa, ipt, ipb)) /\ decode_ip_2 ipa ipt ipb = (0, Some ((ql, k), (q2, 10), (qh, k))) /\
    layer k a b l h /\ close k l ql /\ close k h qh /\ close 10 t q2 /\ below k ql qh.
Proof.
  intros LK La Lb L2. destruct (code_new k a La) as (ipa & qa & Ea & Da & Ca & Ha). destruct (code_new k b Lb) as (ipb & qb & Eb & Db & Cb & Hb). destruct (code_new 10 t ltac:(split; [exact L2|discriminate])) as (ip2 & q2 & E2 & D2 & C2 & H2).
  destruct (level_level k LK) as (A1 & A2 & A3 & A4 & _). destruct (ends k a b ipa ipb qa qb LK (proj1 La) (proj1 Lb) Ea Da Ca Eb Db Cb) as (l & h & ql & qh & IO & R). exists ipa, ip2, ipb, l, h, ql, qh, q2. split.
  { unfold encode_ip_2. rewrite A2, A1. change (is_invalid_kind 10) with false. change (is_level 10) with false. change (10 =? 10) with true. cbn [orb negb andb]. rewrite Ea. cbn [bind]. rewrite E2. cbn [bind]. rewrite Eb. cbn [bind]. rewrite A3. reflexivity. }
  split; [|split; [apply R|split; [apply R|split; [apply R|split; [exact C2|apply R]]]]].
  rewrite (decode_2 k ipa ip2 ipb qa 10 q2 k qb) by (assumption || lia || reflexivity). rewrite Z.eqb_refl, IO, A3, (proj2 (Z.ltb_ge ipa 32768)) by lia. reflexivity.
Qed.
Print Assumptions c55_levels.
Theorem c55_levels_first k a b t : level_kind k -> new_level k a -> new_level k b -> level 10 t ->
  exists ip1 ip2 ip3 l h ql qh q2, encode_ip_2 a k b k t 10 = Some (32, (ip1, ip2, ip3)) /\ decode_ip_2 ip1 ip2 ip3 = (0, Some ((ql, k), (q2, 10), (qh, k))) /\
    layer k a b l h /\ close k l ql /\ close k h qh /\ close 10 t q2 /\ below k ql qh.
Proof.
  intros LK La Lb L2. destruct (code_new 10 t ltac:(split; [exact L2|discriminate])) as (ip2 & q2 & E2 & D2 & C2 & H2). destruct (level_level k LK) as (A1 & A2 & A3 & A4 & KT).
  pose proof (level_fin k a (proj1 La)) as Fa. pose proof (level_fin k b (proj1 Lb)) as Fb.
  (* the order of the codes *)
  assert (G : exists c d, new_level k c /\ new_level k d /\ layer k a b c d /\ forall ipc ipd, to_ip true c k = Some ipc -> to_ip true d k = Some ipd -> encode_ip_2 a k b k t 10 = Some (32, (ipc, ip2, ipd))).
  { destruct (code_new k a La) as (ipa & qa & Ea & _). destruct (code_new k b Lb) as (ipb & qb & Eb & _).
    assert (EN : encode_ip_2 a k b k t 10 = Some (32, if ascending k && f32_ltb b a || descending k && f32_ltb a b then (ipb, ip2, ipa) else (ipa, ip2, ipb))).
    { unfold encode_ip_2. rewrite A2, A1. change (is_invalid_kind 10) with false. cbn [orb negb andb]. rewrite Ea. cbn [bind]. rewrite Eb. cbn [bind]. rewrite E2. cbn [bind]. rewrite Z.eqb_refl. change (10 =? 10) with true. cbn [andb]. rewrite (andb_comm (ascending k)), (andb_comm (descending k)).
      destruct KT as [(T1 & T2 & TK)|[(T1 & T2 & TK)|(T1 & T2 & TK)]]; rewrite T1, T2, ?andb_true_r, ?andb_false_r, ?orb_false_r, ?orb_false_l; [destruct (f32_ltb b a)|destruct (f32_ltb a b)|]; reflexivity. }
    rewrite EN. rewrite !ltb_R by assumption. unfold layer, below. destruct KT as [(T1 & T2 & TK)|[(T1 & T2 & TK)|(T1 & T2 & TK)]]; rewrite T1, T2; cbn [andb orb]; rewrite ?orb_false_r.
    - destruct (Rlt_bool_spec (r32 b) (r32 a)); [exists b, a|exists a, b]; (split; [assumption|]; split; [assumption|]; split; [split; [auto|split; [split; intros; [lra|lia]|intros; lia]]|intros; congruence]).
    - destruct (Rlt_bool_spec (r32 a) (r32 b)); [exists b, a|exists a, b]; (split; [assumption|]; split; [assumption|]; split; [split; [auto|split; [split; intros; [lia|lra]|intros; lia]]|intros; congruence]).
    - exists a, b. split; [assumption|]. split; [assumption|]. split; [split; [auto|split; [split; intros; lia|reflexivity]]|intros; congruence]. }
  destruct G as (c & d & Lc & Ld & LY & EN). destruct (code_new k c Lc) as (ipc & qc & Ec & Dc & Cc & Hc). destruct (code_new k d Ld) as (ipd & qd & Ed & Dd & Cd & Hd). exists ipc, ip2, ipd, c, d, qc, qd, q2. split; [exact (EN ipc ipd Ec Ed)|].
  assert (BL : below k qc qd).
  { destruct LY as (_ & [B1 B2] & _). split; intros X; [specialize (B1 X); exact (code_order k c ipc qc d ipd qd (proj1 Lc) (proj1 Ld) Ec Dc Ed Dd B1)|specialize (B2 X); exact (code_order k d ipd qd c ipc qc (proj1 Ld) (proj1 Lc) Ed Dd Ec Dc B2)]. }
  split; [|split; [exact LY|split; [exact Cc|split; [exact Cd|split; [exact C2|exact BL]]]]].
  rewrite (decode_2 k ipc ip2 ipd qc 10 q2 k qd) by (assumption || lia || reflexivity). rewrite Z.eqb_refl. assert (IO : in_order k qc qd = (qc, qd)).
  { unfold in_order. rewrite !ltb_R by (apply Cc || apply Cd). destruct BL as [B1 B2]. destruct KT as [(T1 & T2 & TK)|[(T1 & T2 & TK)|(T1 & T2 & TK)]]; rewrite T1, T2; cbn [andb orb]; rewrite ?orb_false_r; [rewrite Rlt_bool_false by (apply B1; exact TK)|rewrite Rlt_bool_false by (apply B2; exact TK)|]; reflexivity. }
  rewrite IO, A3, (proj2 (Z.ltb_ge ipc 32768)) by lia. reflexivity.
Qed.
Print Assumptions c55_levels_first.
Example c55_levels_demo : encode_ip_2 (f32_of 500) 2 (f32_of 850) 2 (f32_of 24) 10 = Some (32, (41744464, 176400768, 41394464)) /\ encode_ip_2 (f32_of 500) 2 (f32_of 24) 10 (f32_of 850) 2 = Some (0, (41394464, 176400768, 41744464)).
Proof. split; vm_compute; reflexivity. Qed.

(** Two times come back in the second and third place, the later first. *)
Theorem c55_times k p a b : level_kind k -> level k p -> level 10 a -> level 10 b ->
  exists ip1 ip2 ip3 s l h q1 ql qh, encode_ip_2 p k a 10 b 10 = Some (0, (ip1, ip2, ip3)) /\ decode_ip_2 ip1 ip2 ip3 = (s, Some ((q1, k), (qh, 10), (ql, 10))) /\
    period a b l h /\ close k p q1 /\ close 10 l ql /\ close 10 h qh /\ (r32 ql <= r32 qh)%R /\ (s = 0 \/ s = 2 /\ k = 2 /\ r32 p = 0%R).
Proof.
  intros LK L1 La Lb. destruct (code_level k p L1) as (ip1 & q1 & E1 & D1 & C1 & P1 & H1 & Z1). destruct (level_level k LK) as (A1 & A2 & A3 & A4 & _).
  pose proof (level_fin 10 a La) as Fa. pose proof (level_fin 10 b Lb) as Fb.
  assert (G : exists l h, period a b l h /\ level 10 l /\ level 10 h /\ forall ip2 ip3, to_ip true h 10 = Some ip2 -> to_ip true l 10 = Some ip3 -> encode_ip_2 p k a 10 b 10 = Some (0, (ip1, ip2, ip3))).
  { destruct (code_new 10 a ltac:(split; [exact La|discriminate])) as (ipa & qa & Ea & _). destruct (code_new 10 b ltac:(split; [exact Lb|discriminate])) as (ipb & qb & Eb & _).
    assert (EN : encode_ip_2 p k a 10 b 10 = Some (0, if f32_ltb a b then (ip1, ipb, ipa) else (ip1, ipa, ipb))).
    { unfold encode_ip_2. rewrite A2, A1. change (is_invalid_kind 10) with false. change (is_level 10) with false. change (10 =? 10) with true. cbn [orb negb andb]. rewrite E1. cbn [bind]. rewrite Ea. cbn [bind]. rewrite Eb. cbn [bind]. rewrite A3. reflexivity. }
    rewrite EN, ltb_R by assumption. unfold period. destruct (Rlt_bool_spec (r32 a) (r32 b)); [exists a, b|exists b, a]; (split; [split; [auto|lra]|]; split; [assumption|]; split; [assumption|intros; congruence]). }
  destruct G as (l & h & PE & Ll & Lh & EN). destruct (code_new 10 l ltac:(split; [exact Ll|discriminate])) as (ip3 & ql & E3 & D3 & C3 & H3). destruct (code_new 10 h ltac:(split; [exact Lh|discriminate])) as (ip2 & qh & E2 & D2 & C2 & H2).
  assert (OR : (r32 ql <= r32 qh)%R) by exact (code_order 10 l ip3 ql h ip2 qh Ll Lh E3 D3 E2 D2 (proj2 PE)).
  exists ip1, ip2, ip3, (if ip1 <? 32768 then 2 else 0), l, h, q1, ql, qh. split; [exact (EN ip2 ip3 E2 E3)|]. split.
  { rewrite (decode_2 k ip1 ip2 ip3 q1 10 qh 10 ql) by (assumption || lia || reflexivity). rewrite A3. change (10 =? 10) with true. cbv iota. rewrite ltb_R by (apply C2 || apply C3). rewrite Rlt_bool_false by exact OR. reflexivity. }
  split; [exact PE|]. split; [exact C1|]. split; [exact C3|]. split; [exact C2|]. split; [exact OR|]. destruct (Z.ltb_spec ip1 32768); [|auto]. right. split; [reflexivity|]. destruct (Z.eq_dec k 2) as [->|NK]; [|specialize (H1 ltac:(intros; congruence)); lia]. split; [reflexivity|]. destruct (Req_dec (r32 p) 0) as [|NZ]; [assumption|]. specialize (H1 ltac:(auto)); lia.
Qed.
Print Assumptions c55_times.

(** The layer from 1000 mb to 0 mb comes back as a level of 1000 mb and the
    arbitrary code 0. *)
Theorem c55_top_refuted : exists ip1 ip2 ip3 p1 p2 p3, encode_ip_2 (f32_of 1000) 2 (f32_of 24) 10 (f32_of 0) 2 = Some (0, (ip1, ip2, ip3)) /\ decode_ip_2 ip1 ip2 ip3 = (8, Some ((p1, 2), (p2, 10), (p3, 3))).
Proof.
  exists 39945888, 176400768, 0. assert (S : match decode_ip_2 39945888 176400768 0 with (s, Some ((_, k1), (_, k2), (_, k3))) => (s =? 8) && (k1 =? 2) && (k2 =? 10) && (k3 =? 3) | _ => false end = true) by (vm_compute; reflexivity).
  destruct (decode_ip_2 _ _ _) as [s [[[[p1 k1] [p2 k2]] [p3 k3]]|]]; [|discriminate]. apply andb_true_iff in S as [S S4]. apply andb_true_iff in S as [S S3]. apply andb_true_iff in S as [S1 S2]. apply Z.eqb_eq in S1, S2, S3, S4. subst. exists p1, p2, p3. split; [vm_compute; reflexivity|reflexivity].
Qed.
Print Assumptions c55_top_refuted.
