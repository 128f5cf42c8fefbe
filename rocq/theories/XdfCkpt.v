(** Checkpoint (c_xdfcls with xdf_checkpoint set): what it leaves, and files
    that are not open for writing. *)
From Coq Require Import ZArith List Lia Bool.
From Verif Require Import Bits Handles WaFile Xdf XdfLib XdfInv XdfDel XdfPut XdfPut2 XdfPut3 XdfPut4 XdfOpen XdfClose XdfClose2 XdfAbs.
Import ListNotations.
Open Scope Z_scope.

Record ckpt_effect (f f' : fte) : Prop := {
  k_inv : finv f';
  k_clean : f_modified f' = false;
  k_stat : stat f f';
  k_hdr : f_hdr f' = f_hdr f;
  k_disk : range (f_disk f') 0 (length (f_hdr f)) = f_hdr f;
  k_np : length (f_pages f') = length (f_pages f);
  k_ns : nents (f_pages f') = nents (f_pages f);
  k_abs : forall j s, abs f' j s = abs f j s;
  k_log : exists mid, f_log f' = f_log f ++ [(1, f_hdr f)] ++ mid /\
     f_disk f' = apply_log (f_disk f) ([(1, f_hdr f)] ++ mid) /\
     Forall (wr_above (Z.of_nat (length (f_hdr f))) (dsize (f_disk f))) mid
}.

Lemma xdfckpt_spec junk f : finv f -> writable f -> exists f', xdfcls junk true f = Some f' /\ ckpt_effect f f'.
Proof.
  intros FI [WR RO]. pose proof FI as [G I]. pose proof (g_hlen _ _ G) as HL. pose proof (g_hlen16 _ _ G) as H16. pose proof (g_size _ _ G) as SZ.
  unfold xdfcls. rewrite RO. replace (hget (f_hdr f) H_RWFLG =? RDMODE) with false by (symmetry; apply Z.eqb_neq; exact WR). cbn [negb andb]. cbv zeta.
  rewrite <- HL, Nat2Z.id, firstn_all. rewrite f_write_rw by (try assumption; unfold dsize; lia). cbn [bind]. change (Z.to_nat (1 - 1)) with 0%nat.
  destruct (hdr_write f (f_hdr f) FI eq_refl) as (F1 & L1 & R1 & D1 & FR1). cbv zeta in *. set (f1 := f_setdisk f (write_at (f_disk f) 0 (f_hdr f)) (f_log f ++ [(1, f_hdr f)])) in *.
  assert (C2 : exists f2, (if f_modified f1 then bind (close_pages junk f1 (seq 0 (Z.to_nat (hget (f_hdr f1) H_NBD)))) (fun g => Some (f_setmod g false)) else Some f1)
      = Some f2 /\ finv f2 /\ f_modified f2 = false /\ exists g, closing f1 g /\ f2 = f_setmod g false).
  { destruct (f_modified f1) eqn:M1.
    - change (f_hdr f1) with (f_hdr f). rewrite (g_nbd _ _ G), Nat2Z.id.
      destruct (close_pages_closing junk (length (f_pages f)) 0 f1 F1 RO eq_refl ltac:(intros; lia)) as (g & E & C & Q).
      rewrite E. cbn [bind]. eexists. split; [reflexivity|]. split; [apply finv_setmod_false; [apply (closing_finv _ _ C)|exact Q]|].
      split; [reflexivity|]. exists g. auto.
    - exists f1. split; [reflexivity|]. split; [exact F1|]. split; [exact M1|]. exists f1. split; [apply closing_refl; exact F1|].
      rewrite <- M1. destruct f1; reflexivity. }
  destruct C2 as (f2 & -> & F2 & M2 & g & C & EG). cbn [bind]. exists f2. split; [reflexivity|].
  destruct C as [CI CM (dd & lg & ps & CS) CN CE CD CL (mid & CG1 & CG2 & CG3) _].
  assert (H2 : f_hdr f2 = f_hdr f) by (rewrite EG, CS; reflexivity).
  assert (DD : f_disk f2 = f_disk g) by (rewrite EG; reflexivity).
  assert (PP : f_pages f2 = f_pages g) by (rewrite EG; reflexivity).
  assert (A : forall j s, abs f2 j s = abs f j s).
  { intros j s. pose proof (CE j s) as Q. change (ent f1 j s) with (ent f j s) in Q. unfold abs. replace (ent f2 j s) with (ent g j s) by (unfold ent; rewrite PP; reflexivity).
    destruct (ent f j s) as [e|] eqn:E1; destruct (ent g j s) as [e'|] eqn:E2; try contradiction; [|reflexivity].
    f_equal. destruct (live e) eqn:L.
    - assert (e' = e) as -> by (destruct Q as [->| ->]; [reflexivity|apply live_close; exact L]). rewrite L. f_equal. f_equal.
      replace (rec_data f2 e) with (rec_data g e) by (unfold rec_data; rewrite DD; reflexivity). rewrite (CD j s e E1 L). apply (D1 j s e E1).
    - replace (live e') with false; [reflexivity|]. destruct Q as [->| ->]; [congruence|]. symmetry. rewrite <- L.
      destruct e as [|x e]; [reflexivity|]. apply close_ent_fields. cbn. lia. }
  constructor.
  - exact F2.
  - exact M2.
  - rewrite EG, CS. st. apply hkeep_refl.
  - exact H2.
  - rewrite DD, CG2. rewrite <- R1 at 2. destruct (apply_log_above (Z.of_nat (length (f_hdr f))) (f_disk f1) mid ltac:(lia) CG3) as [_ Q]. apply Q. lia.
  - rewrite PP. apply (f_equal (@length nat)) in CN. unfold nents in CN. rewrite !map_length in CN. exact CN.
  - rewrite PP. exact CN.
  - exact A.
  - exists mid. assert (LG : f_log f2 = f_log g) by (rewrite EG; reflexivity).
    rewrite LG, CG1. change (f_log f1) with (f_log f ++ [(1, f_hdr f)]). rewrite <- !app_assoc. split; [reflexivity|]. split.
    + rewrite apply_log_app. change (apply_log (f_disk f) [(1, f_hdr f)]) with (f_disk f1). rewrite <- CG2, <- DD. reflexivity.
    + unfold dsize in *. rewrite L1 in CG3. exact CG3.
Qed.

Lemma xdfcls_readonly junk b f : ~ writable f -> f_modified f = false -> xdfcls junk b f = Some f.
Proof.
  intros NW M. unfold xdfcls.
  assert (W : negb (hget (f_hdr f) H_RWFLG =? RDMODE) && negb (f_ro f) = false).
  { destruct (Z.eqb_spec (hget (f_hdr f) H_RWFLG) RDMODE); [reflexivity|]. destruct (f_ro f) eqn:R; [reflexivity|]. exfalso. apply NW. split; assumption. }
  rewrite W. cbn [bind]. rewrite M. cbn [bind]. destruct b; reflexivity.
Qed.
