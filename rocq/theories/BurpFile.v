(** Files made by mrfopn have the keys of reports, through any history. *)
From Coq Require Import ZArith List Lia Bool.
From Verif Require Import Bits Handles HandlesFacts WaFile Xdf XdfLib XdfInv XdfDel XdfPut XdfPut2 XdfPut3 XdfPut4 XdfOpen XdfClose XdfClose2 XdfReopen XdfCreate XdfSearch XdfAbs XdfCkpt XdfLoc XdfHist XdfSys XdfSys2 XdfSpec XdfThm XdfThm2 XdfSta Fst FstStd XdfKeys XdfKeysFacts XdfKeysHist XdfKeysThm Burp BurpKeys.
Import ListNotations.
Open Scope Z_scope.
Open Scope opt_scope.

(** The layout of the keys is that of reports. *)
Definition burp_file (f : fte) : Prop :=
  f_kp f = burp_kp /\ f_plen f = 4%nat /\ f_ilen f = 1%nat /\ prim_fields (f_hdr f) = burp_fields /\ info_fields (f_hdr f) = burp_info.

Lemma burp_keys_ok : keys_ok burp_pri burp_aux.
Proof. split; [apply Nat.leb_le; vm_compute; reflexivity|]. split; [apply Nat.leb_le; vm_compute; reflexivity|apply Z.leb_le; vm_compute; reflexivity]. Qed.
Lemma burp_desc sign : desc (new_hdr burp_pri burp_aux sign) = (burp_fields, burp_info, 4).
Proof.
  transitivity (desc (new_hdr burp_pri burp_aux 0)).
  - apply desc_ext. intros k K. unfold hget, new_hdr. cbv zeta. cbn [app]. do 10 (destruct k as [|k]; [lia|]). reflexivity.
  - vm_compute. reflexivity.
Qed.
Lemma burp_sizes sign : sizes (new_hdr burp_pri burp_aux sign) = (4, 1).
Proof.
  transitivity (sizes (new_hdr burp_pri burp_aux 0)).
  - apply sizes_ext. intros k K. unfold hget, new_hdr. cbv zeta. cbn [app]. do 10 (destruct k as [|k]; [lia|]). reflexivity.
  - vm_compute. reflexivity.
Qed.
Lemma burp_kp_ok : kp_ok burp_kp.
Proof.
  assert (X : prim_fields (new_hdr burp_pri burp_aux 0) = burp_fields) by (pose proof (burp_desc 0) as D; unfold desc in D; congruence).
  destruct (burp_generic _ X) as [GW GR]. destruct gen_kp_ok as [W R]. split.
  - intros h dst ks m mk dst' m' H. cbn [burp_kp kp_write] in H. apply (W (new_hdr burp_pri burp_aux 0) dst ks m mk dst' m'). cbn [gen_kp kp_write]. rewrite <- GW. exact H.
  - intros h src ks H A. cbn [burp_kp kp_read] in H. apply (R (new_hdr burp_pri burp_aux 0) src ks); [|exact A]. cbn [gen_kp kp_read]. rewrite <- GR. exact H.
Qed.

(** The header of a new file. *)
Lemma f_write_hdr junk f off ws g : f_write junk f off ws = Some g -> f_hdr g = f_hdr f.
Proof. unfold f_write. destruct (wawrit _ _ _ _ _); [|discriminate]. cbn [bind]. intros H. apply (f_equal (option_map f_hdr)) in H. cbn [option_map] in H. unfold f_setdisk in H. cbn [f_hdr] in H. congruence. Qed.
Lemma create_hdr junk iun std kp d pri aux sign f c : xdfopn_create junk iun false std kp d pri aux sign = Some (c, f) ->
  forall k, k <> H_RWFLG -> k <> H_PLST -> k <> H_NBD -> k <> H_FSIZ -> hget (f_hdr f) k = hget (new_hdr pri aux sign) k.
Proof.
  unfold xdfopn_create. intros H k K1 K2 K3 K4. destruct (create_new_xdf junk (XdfOpen.fresh iun false std kp d) pri aux sign) as [f1|] eqn:C; [|discriminate]. cbn [bind] in H.
  assert (H1 : f_hdr f1 = new_hdr pri aux sign).
  { unfold create_new_xdf in C. cbv zeta in C. change (f_ro (XdfOpen.fresh iun false std kp d)) with false in C. cbv iota in C.
    match type of C with bind ?x _ = _ => destruct x as [g|] eqn:FW end; [|discriminate]. cbn [bind] in C. apply f_write_hdr in FW. apply (f_equal (option_map f_hdr)) in C. cbn [option_map] in C.
    unfold f_setnxt in C. cbn [f_hdr] in C. rewrite FW in C. cbn [f_sethdr f_hdr] in C. assert (E : f_hdr f1 = new_hdr pri aux sign) by (unfold new_hdr; cbv zeta; congruence). exact E. }
  unfold add_dir_page in H. destruct (_ <=? _)%nat; [discriminate|]. cbv zeta iota in H.
  match type of H with bind (bind ?x _) _ = _ => destruct x as [g|] eqn:FW end; [|discriminate]. cbn [bind] in H. apply f_write_hdr in FW. apply (f_equal (option_map (fun x => f_hdr (snd x)))) in H. cbn [option_map snd] in H.
  unfold f_setmod, f_setlink, f_setnxt, f_setpages in H. cbn [f_hdr f_sethdr] in H. rewrite FW, H1 in H.
  assert (L : (16 <= length (new_hdr pri aux sign))%nat) by (unfold new_hdr; cbv zeta; rewrite !app_length; cbn [length]; lia).
  set (hd := new_hdr pri aux sign) in *. clearbody hd. match type of H with Some ?x = _ => assert (E : f_hdr f = x) by congruence end. rewrite E.
  rewrite hget_hset by (rewrite !hset_length, hadd_length, hset_length; unfold H_RWFLG; lia). rewrite (proj2 (Nat.eqb_neq _ _) K1).
  rewrite hget_hset by (rewrite hadd_length, hset_length; unfold H_PLST; lia). rewrite (proj2 (Nat.eqb_neq _ _) K2).
  rewrite hget_hadd by (rewrite hset_length; unfold H_NBD; lia). rewrite (proj2 (Nat.eqb_neq _ _) K3).
  rewrite !hget_hset by (unfold H_FSIZ; lia). rewrite (proj2 (Nat.eqb_neq _ _) K4). reflexivity.
Qed.

Lemma file_of_desc s p i f : wf s -> described s p (burp_fields, burp_info, 4) -> sized s p (4, 1) -> s_fs s p = Opened i -> w_file (s_w s) i = Some f -> f_kp f = burp_kp -> burp_file f.
Proof.
  intros W D S P F KP. unfold described in D. unfold sized in S. rewrite P in D, S. destruct D as (f' & F' & D & _). assert (f' = f) as -> by congruence. destruct S as (f' & F2 & SZ & _). assert (f' = f) as -> by congruence.
  pose proof (wf_fok _ W i f F) as FK. pose proof (fo_inv _ FK) as [G _]. pose proof (g_lprm _ _ G) as LP. pose proof (fo_il _ FK) as IL.
  unfold sizes in SZ. assert (h_lprm (f_hdr f) = 4 /\ h_laux (f_hdr f) = 1) as [A B] by (split; congruence).
  unfold desc in D. split; [exact KP|]. rewrite B in IL. rewrite A in LP. split; [lia|]. split; [exact IL|]. split; congruence.
Qed.

(** A new file is so. *)
Lemma created_burp s junk p iun s1 : wf s -> step (burp_create junk p iun) s = Some (0, s1) ->
  described s1 p (burp_fields, burp_info, 4) /\ sized s1 p (4, 1) /\ exists i f, s_fs s1 p = Opened i /\ w_file (s_w s1) i = Some f /\ f_kp f = burp_kp.
Proof.
  intros W ST. cbn [step burp_create] in ST.
  assert (MAIN : forall d, bind (open_slot (s_w s) iun) (fun r => match r with Err c => Some (c, s)
     | Go i => bind (xdfopn_create junk iun false false burp_kp d burp_pri burp_aux BRP0) (fun cf => let (c, f) := cf in Some (c, mksys (setf (s_w s) i (Some f)) (setfs (s_fs s) p (Opened i)))) end) = Some (0, s1) ->
     described s1 p (burp_fields, burp_info, 4) /\ sized s1 p (4, 1) /\ exists i f, s_fs s1 p = Opened i /\ w_file (s_w s1) i = Some f /\ f_kp f = burp_kp).
  { intros d. destruct (open_slot (s_w s) iun) as [[e|i]|] eqn:OS; [| |discriminate]; cbn [bind].
    - intros H. pose proof (open_slot_err _ _ _ OS) as X. assert (e = 0) by congruence. lia.
    - destruct (open_slot_spec _ _ _ OS) as (N & R & FX & _).
      destruct (create_spec junk iun false burp_kp d burp_pri burp_aux BRP0 burp_keys_ok burp_kp_ok) as (f & X & FI & WB & RW & W2 & W3 & IU & RO & SD & KPE & PL & IL & LA & _).
      pose proof (create_hdr _ _ _ _ _ _ _ _ _ _ X) as HD.
      rewrite X. cbn [bind]. intros H. assert (s1 = mksys (setf (s_w s) i (Some f)) (setfs (s_fs s) p (Opened i))) as -> by congruence.
      assert (PS : setfs (s_fs s) p (Opened i) p = Opened i) by (unfold setfs; rewrite Nat.eqb_refl; reflexivity).
      assert (HE : desc (f_hdr f) = (burp_fields, burp_info, 4)).
      { rewrite <- (burp_desc BRP0). apply desc_ext. intros k K. apply HD; unfold H_RWFLG, H_PLST, H_NBD, H_FSIZ; lia. }
      split; [|split].
      + unfold described. cbn [s_fs s_w]. rewrite PS. exists f. split; [apply setf_same|]. split; [exact HE|intros PR; exfalso; exact (protected_not _ PR WB)].
      + unfold sized. cbn [s_fs s_w]. rewrite PS. exists f. split; [apply setf_same|]. split; [|intros PR; exfalso; exact (protected_not _ PR WB)].
        rewrite <- (burp_sizes BRP0). apply sizes_ext. intros k K. apply HD; unfold H_RWFLG, H_PLST, H_NBD, H_FSIZ; lia.
      + exists i, f. split; [exact PS|]. split; [apply setf_same|exact KPE]. }
  destruct (s_fs s p) as [|d|j]; [| |discriminate]; eapply MAIN; exact ST.
Qed.

Lemma burp_layout : key_layout burp_fields 6.
Proof.
  split; [apply byte_fits, burp_byte_ups|]. split; [|unfold burp_fields; repeat constructor; cbn; lia].
  unfold burp_fields, apart_fields. repeat (apply FOP_cons; [repeat (apply Forall_cons; [cbn; lia|]); apply Forall_nil|]). apply FOP_nil.
Qed.
Lemma burp_info_layout : key_layout burp_info 2.
Proof.
  split; [apply byte_fits, info_byte_ups|]. split; [|unfold burp_info; repeat constructor; cbn; lia].
  unfold burp_info, apart_fields. repeat (apply FOP_cons; [repeat (apply Forall_cons; [cbn; lia|]); apply Forall_nil|]). apply FOP_nil.
Qed.
Lemma burp_spans : spans burp_fields 6.
Proof. split; reflexivity. Qed.
Lemma burp_as_generic f : burp_file f -> as_generic (f_kp f) (prim_fields (f_hdr f)).
Proof. intros (KP & _ & _ & PF & _). rewrite KP, PF. apply burp_generic. Qed.
