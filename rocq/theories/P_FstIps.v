(** Searching standard files with lists of levels: property C61.

    A program gives ip1_all, ip2_all, ip3_all (or ip1_val, ip2_val, ip3_val) the
    levels it wants, then searches with the codes these functions returned. *)
From Coq Require Import ZArith List Lia Bool.
From Verif Require Import Bits BitIO SpecPack Handles HandlesFacts WaFile Xdf XdfLib XdfInv XdfDel XdfPut XdfPut2 XdfPut3 XdfPut4 XdfOpen XdfSearch XdfAbs XdfHist XdfSys XdfSys2 XdfSpec XdfEnum XdfThm XdfThm2 XdfThm3 XdfDemo Dates DatesSpec Flo Convip Fst FstSpec FstFacts FstSearch FstThm FstThm2 FstDemo FstEff FstEffFacts FstIps FstIpsFacts P_Fst.
Import ListNotations.
Open Scope Z_scope.
Open Scope opt_scope.

(** A record agrees with the lists: in each list in use, a code of the same
    level as its own. *)
Definition agrees (t : iptabs) (l : label) : Prop :=
  (t_ip1 t = [] \/ listed (t_ip1 t) (l_ip1 l)) /\ (t_ip2 t = [] \/ listed (t_ip2 t) (l_ip2 l)) /\ (t_ip3 t = [] \/ listed (t_ip3 t) (l_ip3 l)).
(** The search gives for each list in use the first code in it. *)
Definition heads (t : iptabs) (q : query) : Prop :=
  (t_ip1 t = [] \/ hd (-1) (t_ip1 t) = q_ip1 q /\ 0 <= q_ip1 q) /\ (t_ip2 t = [] \/ hd (-1) (t_ip2 t) = q_ip2 q /\ 0 <= q_ip2 q) /\
  (t_ip3 t = [] \/ hd (-1) (t_ip3 t) = q_ip3 q /\ 0 <= q_ip3 q).
(** The other criteria of the search. *)
Definition others_of (t : iptabs) (q : query) : query :=
  let unless (l : list Z) (x : Z) := match l with [] => x | _ :: _ => -1 end in
  mkquery (q_datev q) (q_etiket q) (unless (t_ip1 t) (q_ip1 q)) (unless (t_ip2 t) (q_ip2 q)) (unless (t_ip3 t) (q_ip3 q)) (q_typvar q) (q_nomvar q).
Lemma relaxed_others t q : relaxed t q = others_of t q.
Proof. unfold relaxed, others_of. destruct (t_ip1 t), (t_ip2 t), (t_ip3 t); reflexivity. Qed.
(** No comparison of the codes of the record with those of the lists overflows. *)
Definition compares (t : iptabs) (l : label) : Prop :=
  (forall x, In x (t_ip1 t) -> comparable (l_ip1 l) x) /\ (forall x, In x (t_ip2 t) -> comparable (l_ip2 l) x) /\ (forall x, In x (t_ip3 t) -> comparable (l_ip3 l) x).

Theorem c61_match : forall t c, 0 <= c -> (forall x, In x t -> comparable c x) ->
  exists b, ip_is_equal (hd (-1) t) t c = Some b /\ (b = true <-> listed t c).
Proof.
  intros t c C0 CM. unfold ip_is_equal. replace (hd (-1) t) with (nth 0 t (-1)) by (destruct t; reflexivity). rewrite Z.eqb_refl. cbn [negb]. exact (list_level t c C0 CM).
Qed.

Lemma ip_pos ws : 0 <= k_ip1 (keys_of ws) /\ 0 <= k_ip2 (keys_of ws) /\ 0 <= k_ip3 (keys_of ws).
Proof. unfold keys_of. cbn [k_ip1 k_ip2 k_ip3]. unfold getf. repeat split; apply Z.mod_pos_bound; apply Z.pow_pos_nonneg; lia. Qed.

Lemma list_take t qi c : (t = [] \/ hd (-1) t = qi /\ 0 <= qi) -> 0 <= c -> (forall x, In x t -> comparable c x) ->
  (in_use t && (0 <=? qi) = false /\ t = []) \/ (in_use t && (0 <=? qi) = true /\ t <> [] /\ exists b, ip_is_equal qi t c = Some b /\ (b = true <-> listed t c)).
Proof.
  intros [->|[H Q]] C0 CM; [left; auto|]. destruct t as [|x t]; [left; auto|]. right. split; [cbn [in_use andb]; apply Z.leb_le; exact Q|]. split; [discriminate|]. rewrite <- H. apply c61_match; assumption.
Qed.

Lemma take_agrees t q ws : t_ip1 t <> [] -> (t_ip3 t = [] \/ t_ip2 t <> []) -> heads t q -> compares t (entry_label ws) ->
  exists b, tabs_take t q (keys_of ws) = Some b /\ (b = true <-> agrees t (entry_label ws)).
Proof.
  intros U1 U3 (H1 & H2 & H3) (C1 & C2 & C3). destruct (ip_pos ws) as (P1 & P2 & P3). unfold tabs_take, agrees. cbn [entry_label l_ip1 l_ip2 l_ip3] in *.
  destruct (list_take _ _ _ H1 P1 C1) as [[_ X]|(E1 & _ & b1 & B1 & L1)]; [contradiction|]. rewrite E1, B1. cbn [bind]. destruct b1; cbn [negb].
  2: { exists false. split; [reflexivity|]. split; [discriminate|]. intros ([X|X] & _); [contradiction|apply L1; exact X]. }
  destruct (list_take _ _ _ H2 P2 C2) as [[E2 X2]|(E2 & N2 & b2 & B2 & L2)]; rewrite E2.
  { destruct U3 as [U3|U3]; [|contradiction]. exists true. split; [reflexivity|]. split; [|reflexivity]. intros _. split; [right; apply L1; reflexivity|auto]. }
  rewrite B2. cbn [bind]. destruct b2; cbn [negb].
  2: { exists false. split; [reflexivity|]. split; [discriminate|]. intros (_ & [X|X] & _); [contradiction|apply L2; exact X]. }
  destruct (list_take _ _ _ H3 P3 C3) as [[E3 X3]|(E3 & N3 & b3 & B3 & L3)]; rewrite E3.
  { exists true. split; [reflexivity|]. split; [|reflexivity]. intros _. split; [right; apply L1; reflexivity|]. split; [right; apply L2; reflexivity|auto]. }
  rewrite B3. exists b3. split; [reflexivity|]. split.
  - intros X. split; [right; apply L1; reflexivity|]. split; [right; apply L2; reflexivity|right; apply L3; exact X].
  - intros (_ & _ & [X|X]); [contradiction|apply L3; exact X].
Qed.

Theorem c61_first : forall n junk filt q t s p i f, reached s -> opened s p i f -> std_file f -> query_ok q -> (q_datev q = -1 \/ dates_coded f) ->
  t_ip1 t <> [] -> (t_ip3 t = [] \/ t_ip2 t <> []) -> heads t q ->
  let cands := found filt (others_of t q) i f in
  (forall k r, In (k, r) cands -> compares t (record_label f k r)) -> (length cands <= n)%nat ->
  exists h d s1 g, fstinfx_ips n junk filt (-2) (f_iun f) q t s = Some (h, d, no_tabs, s1) /\
    opened s1 p i g /\ same_recs s s1 /\ (forall filt' q', found filt' q' i g = found filt' q' i f) /\
    ((exists k r before later, cands = before ++ (k, r) :: later /\ (forall x, In x before -> ~ agrees t (record_label f (fst x) (snd x))) /\ agrees t (record_label f k r) /\
        h = rec_handle i k r /\ d = Some (record_dims f k r)) \/
     ((forall k r, In (k, r) cands -> ~ agrees t (record_label f k r)) /\ h = ERR_NOT_FOUND)).
Proof.
  intros n junk filt q t s p i f RS OP SF QO DC U1 U3 HD. rewrite <- relaxed_others. intros cands CM LN. pose proof (reached_wf _ RS) as W. pose proof OP as [P F]. pose proof (wf_fok _ W i f F) as FK.
  set (T := fun x : nat * nat => match tabs_take t q (keys_of (skipn 2 (entry_words f (fst x) (snd x)))) with Some b => b | None => false end).
  assert (TK : forall k r, In (k, r) cands -> tabs_take t q (keys_of (skipn 2 (entry_words f k r))) = Some (T (k, r)) /\ (T (k, r) = true <-> agrees t (record_label f k r))).
  { intros k r IN. unfold T. cbn [fst snd]. destruct (take_agrees t q (skipn 2 (entry_words f k r)) U1 U3 HD (CM k r IN)) as (b & B & A). rewrite B. split; [reflexivity|exact A]. }
  pose proof (file_index_of _ _ _ W F) as FX.
  destruct (ips_enum junk filt (f_iun f) (key_words (query_keys q)) (tabs_mask t q) (S MAX_DIR_PAGES) (s_w s) i f FX F FK (proj1 SF) (wf_seq _ W) (wf_rng _ W i f F)) as (w' & EN).
  { rewrite (std_nkeys f SF). reflexivity. } { rewrite (std_nkeys f SF). reflexivity. } { apply key_words_words. } { pose proof (g_np _ _ (proj1 (fo_inv _ FK))). lia. }
  rewrite (relaxed_found s p i f filt t q W OP SF QO DC) in EN. fold cands in EN.
  assert (HC : forall h' w2, ips_call (S MAX_DIR_PAGES) junk filt (f_iun f) (key_words (query_keys q)) (tabs_mask t q) (s_w s) 0 = Some (h', w2) ->
     step (OpLoc junk filt (f_iun f) 0 (key_words (query_keys q)) 16 (Some (tabs_mask t q))) s = Some (h', mksys w2 (s_fs s)) /\ after_search s i f (mksys w2 (s_fs s))).
  { intros h' w2 C. assert (ST : step (OpLoc junk filt (f_iun f) 0 (key_words (query_keys q)) 16 (Some (tabs_mask t q))) s = Some (h', mksys w2 (s_fs s))) by (cbn [step]; unfold ips_call in C; cbn [Z.eqb] in C; rewrite C; reflexivity).
    split; [exact ST|]. eapply loc_after; [reflexivity|exact F|exact W|apply after_search_refl; assumption|exact ST]. }
  assert (FIN : forall s1, after_search s i f s1 -> exists g, opened s1 p i g /\ same_recs s s1 /\ (forall filt' q', found filt' q' i g = found filt' q' i f)).
  { intros s1 (_ & SR & FS & _ & g & G & LG). exists g. split; [split; [rewrite FS; exact P|exact G]|]. split; [exact SR|]. intros filt' q'. apply likes_found. exact LG. }
  unfold fstinfx_ips. replace (negb (in_use (t_ip1 t) || in_use (t_ip2 t) || in_use (t_ip3 t))) with false by (destruct (t_ip1 t); [contradiction|reflexivity]). rewrite FX. change (0 <? -2) with false. change (-2 =? -2) with true. cbn [andb].
  destruct cands as [|[k0 r0] ps] eqn:EC; cbn [map fst snd] in EN; inversion EN as [w0 h0 w1 C|w0 h0 h' w2 l w3 C HP2 EN2]; clear EN.
  - destruct (HC _ _ C) as [ST AS]. rewrite ST. cbn [bind]. change (ERR_NOT_FOUND <? 0) with true. cbv iota. destruct (FIN _ AS) as (g & A & B & D). eexists _, _, _, g. split; [reflexivity|]. split; [exact A|]. split; [exact B|]. split; [exact D|]. right. split; [intros k r []|reflexivity].
  - destruct (HC _ _ C) as [ST AS]. rewrite ST. cbn [bind]. rewrite (proj2 (Z.ltb_ge (rec_handle i k0 r0) 0)) by lia.
    destruct (ips_loop_ok junk filt t q s p i f (key_words (query_keys q)) T W OP SF) with (n := n) (s1 := mksys w2 (s_fs s)) (k := k0) (r := r0) (ps := ps) (w' := w') as (h & ks & s2 & LP & AS2 & LK & RES).
    { intros k r IN. fold cands in IN. rewrite EC in IN. apply (TK k r IN). } { exact AS. } { cbn [length] in LN. lia. } { intros x X. fold cands. rewrite EC. exact X. } { exact EN2. }
    rewrite LP. cbn [bind]. destruct (set_target_ok s p i f s2 ks (exact_mask t q) W OP SF AS2 LK (key_words_length _)) as (s3 & ST3 & AS3). rewrite ST3. cbn [bind].
    destruct (FIN _ AS3) as (g & A & B & D). eexists _, _, _, g. split; [reflexivity|]. split; [exact A|]. split; [exact B|]. split; [exact D|].
    destruct (find T ((k0, r0) :: ps)) as [[k r]|] eqn:FN.
    + left. cbn [fst snd] in RES. destruct RES as [-> ->]. destruct (find_split _ _ _ FN) as (bf & lt & SP & TT & NB). exists k, r, bf, lt. split; [exact SP|]. assert (IN : In (k, r) ((k0, r0) :: ps)) by (rewrite SP; apply in_or_app; right; left; reflexivity).
      split; [|split; [apply (TK k r IN); exact TT|split; reflexivity]]. intros [k1 r1] X AG. cbn [fst snd] in AG. assert (IN1 : In (k1, r1) ((k0, r0) :: ps)) by (rewrite SP; apply in_or_app; left; exact X). apply (TK k1 r1 IN1) in AG. rewrite (NB _ X) in AG. discriminate.
    + right. split; [|exact RES]. intros k r IN AG. apply (TK k r IN) in AG. rewrite (find_none _ _ FN _ IN) in AG. discriminate.
Qed.

(** What ip1_all, ip2_all, ip3_all put in a list: the two codes of the level, so
    that records written with either encoding agree, and nothing else. *)
Theorem c61_all : forall t level kind new old, (S (length t) < MAX_IPVALS)%nat -> kind < 4 -> to_ip true level kind = Some new -> to_ip false level kind = Some old ->
  exists t', ip_all t level kind = Some (new, t') /\ (t = [] -> hd (-1) t' = new) /\ (t <> [] -> hd (-1) t' = hd (-1) t) /\
    forall c, listed t' c <-> listed t c \/ same_level c new \/ same_level c old.
Proof.
  intros t level kind new old L K N O. unfold ip_all. rewrite (proj2 (Nat.leb_gt _ _)), N by lia. cbn [bind]. rewrite (proj2 (Nat.leb_gt _ _)), (proj2 (Z.ltb_lt _ _)), O by lia. cbn [bind].
  eexists. split; [reflexivity|]. split; [intros ->; reflexivity|]. split; [destruct t; [contradiction|reflexivity]|]. intros c. unfold listed. split.
  - intros (x & X & S). apply in_app_or in X as [X|[X|[X|[]]]]; [left; exists x; auto|right; left; congruence|right; right; congruence].
  - intros [(x & X & S)|[S|S]]; [exists x|exists new|exists old]; (split; [apply in_or_app|exact S]); [left; exact X|right; left; reflexivity|right; right; left; reflexivity].
Qed.
(** ip1_val and the others: the new code alone. *)
Theorem c61_val : forall t level kind new, (S (length t) < MAX_IPVALS)%nat -> to_ip true level kind = Some new ->
  exists t', ip_val t level kind = Some (new, t') /\ (t = [] -> hd (-1) t' = new) /\ forall c, listed t' c <-> listed t c \/ same_level c new.
Proof.
  intros t level kind new L N. unfold ip_val. rewrite (proj2 (Nat.leb_gt _ _)), N by lia. cbn [bind]. rewrite (proj2 (Nat.leb_gt _ _)) by lia.
  eexists. split; [reflexivity|]. split; [intros ->; reflexivity|]. intros c. unfold listed. split.
  - intros (x & X & S). apply in_app_or in X as [X|[X|[]]]; [left; exists x; auto|right; congruence].
  - intros [(x & X & S)|S]; [exists x|exists new]; (split; [apply in_or_app|exact S]); [left; exact X|right; left; reflexivity].
Qed.

(** ** Three records: 850 mb, 500 mb in the old encoding, 500 mb in the new *)
Definition lev_args (ip1 : Z) : fargs := mkargs (-16) demo_date 3600 6 2 2 1 ip1 6 0 [80] tt [116; 101; 115; 116] [76] 1 66051 3 4 2.
Definition lev1 : sys := after (wr (lev_args 850) fst0 false).
Definition lev2 : sys := after (wr (lev_args 500) lev1 false).
Definition lev3 : sys := after (wr (lev_args 41394464) lev2 false).
Definition mb500 : list Z := [41394464; 500].
Definition level_query : query := mkquery (-1) [] 41394464 (-1) (-1) [] [].
Definition hour_query : query := mkquery (-1) [] (-1) 41394464 (-1) [] [].

Lemma lev_next s z s1 : reach s -> (exists i f, opened s 0 i f /\ std_file f /\ f_iun f = 10 /\ hget (f_hdr f) H_FSIZ < 10000) ->
  code (wr (lev_args z) s false) = Some 0 -> s1 = after (wr (lev_args z) s false) -> reach s1 /\ exists i f, opened s1 0 i f /\ std_file f /\ f_iun f = 10.
Proof.
  intros RS (i & f & OP & SF & IU & SZ) C S1. destruct (code_after _ _ C) as (s1' & E). rewrite E in S1. cbn [after] in S1. subst s1'.
  assert (PT : Forall printable tt) by (repeat (apply Forall_cons || apply Forall_nil); unfold printable; lia).
  assert (AO : args_ok (lev_args z)) by (destruct (demo_args_ok tt PT) as (A & B & C0 & D); split; [exact A|split; [exact B|split; [exact C0|exact D]]]).
  assert (FO : field_ok (lev_args z) demo_field) by (split; [repeat (apply Forall_cons || apply Forall_nil); lia|split; [vm_compute; discriminate|intros T; exfalso; revert T; vm_compute; discriminate]]).
  assert (SP : space f (lev_args z)) by (destruct (demo_space f tt SF SZ) as [A B]; split; [exact A|exact B]).
  destruct (c39_reach _ _ _ _ _ _ _ _ _ _ _ RS OP SF IU AO FO SP E) as (R1 & f1 & OP1 & SF1 & IU1).
  split; [exact R1|]. exists i, f1. auto.
Qed.
Lemma small_file s : (exists i f, opened s 0 i f /\ std_file f /\ f_iun f = 10) ->
  match s_fs s 0%nat with Opened i => match w_file (s_w s) i with Some f => hget (f_hdr f) H_FSIZ <? 10000 | None => false end | _ => false end = true ->
  exists i f, opened s 0 i f /\ std_file f /\ f_iun f = 10 /\ hget (f_hdr f) H_FSIZ < 10000.
Proof. intros (i & f & OP & SF & IU) S. pose proof OP as [P F]. rewrite P, F in S. exists i, f. split; [exact OP|]. split; [exact SF|]. split; [exact IU|apply Z.ltb_lt; exact S]. Qed.
Lemma lev_file : exists f, reached lev3 /\ opened lev3 0 1 f /\ std_file f /\ f_iun f = 10 /\
  map (fun x => (x, l_ip1 (record_label f (fst x) (snd x)), l_ip2 (record_label f (fst x) (snd x)))) (found no_filter every_record 1 f) =
    [((0, 0)%nat, 850, 6); ((0, 1)%nat, 500, 6); ((0, 2)%nat, 41394464, 6)].
Proof.
  destruct fst0_file as (R0 & F0).
  destruct (lev_next fst0 850 lev1 R0 F0) as (R1 & F1); [vm_compute; reflexivity|reflexivity|].
  destruct (lev_next lev1 500 lev2 R1) as (R2 & F2); [apply small_file; [exact F1|vm_compute; reflexivity]|vm_compute; reflexivity|reflexivity|].
  destruct (lev_next lev2 41394464 lev3 R2) as (R3 & i & f & OP & SF & IU); [apply small_file; [exact F2|vm_compute; reflexivity]|vm_compute; reflexivity|reflexivity|].
  assert (S : match s_fs lev3 0%nat with Opened i => match w_file (s_w lev3) i with Some f => Some (i, map (fun x => (x, l_ip1 (record_label f (fst x) (snd x)), l_ip2 (record_label f (fst x) (snd x)))) (found no_filter every_record 1 f)) | None => None end | _ => None end
    = Some (1%nat, [((0, 0)%nat, 850, 6); ((0, 1)%nat, 500, 6); ((0, 2)%nat, 41394464, 6)])) by (vm_compute; reflexivity).
  pose proof OP as [P F]. rewrite P, F in S. assert (i = 1%nat) as -> by congruence. exists f. split; [apply reach_reached; exact R3|]. split; [exact OP|]. split; [exact SF|]. split; [exact IU|]. congruence.
Qed.

Lemma mb500_listed c : listed mb500 c <-> same_level c 41394464 \/ same_level c 500.
Proof.
  unfold listed, mb500. split; [intros (x & [<-|[<-|[]]] & S); auto|]. intros [S|S]; [exists 41394464|exists 500]; split; auto; [left|right; left]; reflexivity.
Qed.
Lemma not_850 : ~ listed mb500 850.
Proof. rewrite mb500_listed. unfold same_level. lia. Qed.
Lemma mb500_compares c : comparable c 41394464 \/ c <= 32767 -> forall x, In x mb500 -> comparable c x.
Proof. unfold comparable. intros H x [<-|[<-|[]]] A B C; [destruct H as [H|H]; [apply H; assumption|lia]|lia]. Qed.

(** The hypotheses of c61_first are met: the list holds 500 mb, the record of
    850 mb is passed over. *)
Example ips_demo : ip_all [] (f32_of 500) 2 = Some (41394464, mb500) /\ exists f, reached lev3 /\ opened lev3 0 1 f /\ std_file f /\ query_ok level_query /\
  heads (mktabs mb500 [] []) level_query /\
  found no_filter (others_of (mktabs mb500 [] []) level_query) 1 f = [(0, 0); (0, 1); (0, 2)]%nat /\
  (forall k r, In (k, r) [(0, 0); (0, 1); (0, 2)]%nat -> compares (mktabs mb500 [] []) (record_label f k r)) /\
  ~ agrees (mktabs mb500 [] []) (record_label f 0 0) /\ agrees (mktabs mb500 [] []) (record_label f 0 1) /\ agrees (mktabs mb500 [] []) (record_label f 0 2).
Proof.
  split; [vm_compute; reflexivity|]. destruct lev_file as (f & RS & OP & SF & IU & FD). exists f. split; [exact RS|]. split; [exact OP|]. split; [exact SF|].
  split; [unfold query_ok, level_query; cbn; repeat split; auto; lia|]. split; [split; [right; split; [reflexivity|cbn; lia]|split; left; reflexivity]|].
  change (others_of (mktabs mb500 [] []) level_query) with every_record. revert FD. generalize (found no_filter every_record 1 f). intros l FD.
  destruct l as [|x0 [|x1 [|x2 [|x3 l]]]]; try discriminate FD. cbn [map] in FD.
  assert (x0 = (0, 0)%nat /\ x1 = (0, 1)%nat /\ x2 = (0, 2)%nat) as (-> & -> & ->) by (repeat split; congruence). cbn [fst snd] in FD.
  assert (l_ip1 (record_label f 0 0) = 850 /\ l_ip1 (record_label f 0 1) = 500 /\ l_ip1 (record_label f 0 2) = 41394464) as (A & B & C) by (repeat split; congruence).
  split; [reflexivity|]. split; [|split; [|split]].
  - intros k r [X|[X|[X|[]]]]; assert (k = 0%nat /\ (r = 0 \/ r = 1 \/ r = 2)%nat) as [-> Y] by (split; [congruence|]; injection X; lia); (split; [|split; intros x []]); destruct Y as [->|[->| ->]]; rewrite ?A, ?B, ?C; apply mb500_compares; (right; lia) || (left; unfold comparable; lia).
  - intros ([X|X] & _); [discriminate|]. cbn [t_ip1] in X. rewrite A in X. exact (not_850 X).
  - split; [right; cbn [t_ip1]; rewrite B; apply mb500_listed; right; left; reflexivity|split; left; reflexivity].
  - split; [right; cbn [t_ip1]; rewrite C; apply mb500_listed; left; left; reflexivity|split; left; reflexivity].
Qed.
Lemma next_help (o : option (Z * option (Z * Z * Z) * iptabs * sys)) h d : match o with Some (h, d, t, s1) => Some (h, d, t, match fstsui zeros no_filter 10 s1 with Some (h2, _, _) => h2 | None => 0 end) | None => None end = Some (h, d, no_tabs, ERR_NOT_FOUND) ->
  exists s1 d2 s2, o = Some (h, d, no_tabs, s1) /\ fstsui zeros no_filter 10 s1 = Some (ERR_NOT_FOUND, d2, s2).
Proof.
  destruct o as [[[[h0 d0] t] s1]|]; [|discriminate]. intros X. destruct (fstsui zeros no_filter 10 s1) as [[[h2 d2] s2]|] eqn:S; [|discriminate X]. exists s1, d2, s2. split; congruence.
Qed.
Lemma first_help (o : option (Z * option (Z * Z * Z) * iptabs * sys)) h d : match o with Some (h, d, t, _) => Some (h, d, t) | None => None end = Some (h, d, no_tabs) -> exists s1, o = Some (h, d, no_tabs, s1).
Proof. destruct o as [[[[h0 d0] t] s1]|]; [|discriminate]. intros X. exists s1. congruence. Qed.
Lemma search500 : exists s1 d2 s2, fstinfx_ips 3 zeros no_filter (-2) 10 level_query (mktabs mb500 [] []) lev3 = Some (1025, Some (2, 2, 1), no_tabs, s1) /\
  fstsui zeros no_filter 10 s1 = Some (ERR_NOT_FOUND, d2, s2).
Proof. apply next_help. vm_compute. reflexivity. Qed.
Lemma search_ip2 : exists s1, fstinfx_ips 3 zeros no_filter (-2) 10 hour_query (mktabs [] mb500 []) lev3 = Some (1, Some (2, 2, 1), no_tabs, s1).
Proof. apply first_help. vm_compute. reflexivity. Qed.
Example ips_demo2 : exists s1, fstinfx_ips 3 zeros no_filter (-2) 10 level_query (mktabs mb500 [] []) lev3 = Some (rec_handle 1 0 1, Some (2, 2, 1), no_tabs, s1).
Proof. destruct search500 as (s1 & _ & _ & E & _). exists s1. exact E. Qed.

(** "Continuing the search gives the other records that agree with the lists"
    is false: the continuation looks for the codes of the record found. *)
Theorem c61_next_refuted : exists f h d s1 d2 s2, reached lev3 /\ opened lev3 0 1 f /\
  fstinfx_ips 3 zeros no_filter (-2) (f_iun f) level_query (mktabs mb500 [] []) lev3 = Some (h, d, no_tabs, s1) /\ h = rec_handle 1 0 1 /\
  In (0, 2)%nat (found no_filter (others_of (mktabs mb500 [] []) level_query) 1 f) /\ agrees (mktabs mb500 [] []) (record_label f 0 2) /\
  fstsui zeros no_filter (f_iun f) s1 = Some (ERR_NOT_FOUND, d2, s2).
Proof.
  destruct ips_demo as (_ & f & RS & OP & SF & QO & HD & FD & CM & _ & _ & AG). destruct lev_file as (f' & _ & OP' & _ & IU & _). assert (f' = f) as -> by (destruct OP as [_ A], OP' as [_ B]; congruence).
  destruct search500 as (s1 & d2 & s2 & Y1 & Y2). exists f, 1025, (Some (2, 2, 1)), s1, d2, s2. rewrite IU. split; [exact RS|]. split; [exact OP|]. split; [exact Y1|]. split; [reflexivity|]. split; [rewrite FD; right; right; left; reflexivity|]. split; [exact AG|exact Y2].
Qed.

(** "A list for ip2 selects records by their ip2" is false without a list for
    ip1: any record is taken. *)
Theorem c61_ip2_refuted : exists f h d s1, reached lev3 /\ opened lev3 0 1 f /\ heads (mktabs [] mb500 []) hour_query /\
  fstinfx_ips 3 zeros no_filter (-2) (f_iun f) hour_query (mktabs [] mb500 []) lev3 = Some (h, d, no_tabs, s1) /\ h = rec_handle 1 0 0 /\
  ~ agrees (mktabs [] mb500 []) (record_label f 0 0).
Proof.
  destruct lev_file as (f & RS & OP & SF & IU & FD).
  destruct search_ip2 as (s1 & Y1). exists f, 1, (Some (2, 2, 1)), s1. rewrite IU. split; [exact RS|]. split; [exact OP|]. split; [split; [left; reflexivity|split; [right; split; [reflexivity|cbn; lia]|left; reflexivity]]|]. split; [exact Y1|]. split; [reflexivity|].
  revert FD. generalize (found no_filter every_record 1 f). intros l FD. destruct l as [|x0 l]; [discriminate FD|]. cbn [map] in FD. assert (x0 = (0, 0)%nat) as -> by congruence. cbn [fst snd] in FD.
  assert (A : l_ip2 (record_label f 0 0) = 6) by congruence. intros (_ & [Y|Y] & _); [discriminate|]. cbn [t_ip2] in Y. rewrite A in Y. apply mb500_listed in Y. unfold same_level in Y. assert (V : 500 < nth (Z.to_nat 6) ipold_0_9 0 < 41394464) by (vm_compute; split; reflexivity). lia.
Qed.

(** "Codes of one kind can always be compared" is false: exponents far apart
    overflow 64 bits. *)
Theorem c61_overflow_refuted : exists c t, 0 <= c < 2 ^ 28 /\ 0 <= t < 2 ^ 28 /\ 32767 < c /\ 32767 < t /\ code_equal c t = None.
Proof. exists (2 * 2 ^ 24 + 1000000), (2 * 2 ^ 24 + 15 * 2 ^ 20 + 3). repeat split; try lia; vm_compute; reflexivity. Qed.

Print Assumptions c61_match.
Print Assumptions c61_first.
Print Assumptions c61_all.
Print Assumptions c61_val.
Print Assumptions c61_next_refuted.
Print Assumptions c61_ip2_refuted.
Print Assumptions c61_overflow_refuted.
