(** C181 on a concrete Linux machine with a SATA drive that has a PSID and an MSID. *)
From Verif Require Import Base M_Buffer M_Struc M_Ata M_TcgToken M_TcgCommand M_TcgDevice M_TcgSession M_DriveHandle M_Cdb M_SgDriver M_SgHandle M_NvmeLinux M_Strings M_LinuxInfo M_LinuxFactory
  M_LinuxSystem M_TcgOnDrive Spec_Drive Prop_Drive Spec_LinuxFactory P_LinuxFactory Prop_LinuxFactory Spec_NvmeLinux Spec_Sg P_Sg Prop_Sg
  Prop_NvmeLinux Prop_SgHandle Spec_Tcg Spec_TcgCommand Spec_TcgClient Spec_TcgSession Spec_TcgOnDrive P_TcgDevice P_TcgSession P_TcgOnDrive Spec_LinuxSystem P_LinuxSystem Prop_LinuxSystem Prop_LinuxTcg
  Prop_TcgOnDrive Spec_LinuxSata Prop_LinuxSataTcg Ex_LinuxSata Ex_TcgSession Ex_TcgOnDrive Ex_LinuxSystem Inst_Tcg Inst_Linux
  Spec_Challenge P_Challenge Prop_Challenge Spec_Conform Prop_Conform Ex_Conform Spec_NvmeConform P_NvmeConform Prop_NvmeConform Ex_NvmeConform Spec_SataConform P_SataConform Prop_SataConform.

Definition excs_sata (h : sg_hist) : sg_ans :=
  {| an_errno := 0; an_ret := 0; an_sense := []; an_status := Some 0;
     an_in := if (List.length h =? 1)%nat then exy_ata_identify else if (List.length h =? 2)%nat then exy_level0 else excf_answer (last (sata_received h) []) |}.
Definition excs_sys : system := exy_sys exy_refuse_nvme excs_sata.
Lemma excs_takes : takes_security excs_sata.
Proof. intros k c s _. repeat split; reflexivity. Qed.
Lemma excs_bytes : forall k, wf (an_in (excs_sata k)).
Proof. intros k. cbn [excs_sata an_in]. destruct (_ =? 1)%nat; [wf_lit|]. destruct (_ =? 2)%nat; [apply exy_level0_wf|]. apply excf_answer_wf. Qed.
Lemma excs_received k c rs packet : sp_out 0x1004 packet c -> Forall (sp_in 0x1004) rs -> last (sata_received (k ++ c :: rs)) [] = packet.
Proof.
  intros (E & <-) F. unfold sata_received. rewrite filter_app. cbn [filter]. unfold is_out at 2. rewrite E. cbn [sc_out].
  assert (Q : filter is_out rs = []).
  { clear E. induction F as [|r rs E _ IH]; [reflexivity|]. cbn [filter]. unfold is_out at 1. rewrite E. cbn [sc_out]. exact IH. }
  rewrite Q, map_app. apply last_last.
Qed.
Lemma excs_replies k packet p atoms : (2 <= List.length k)%nat -> excf_answer packet = ex_packet p -> wf p -> p = stream atoms -> (List.length p <= 100)%nat ->
  be32_at off_sub_len (firstn 56 (ex_packet p)) = blen p -> be32_at off_outstanding (received (ex_packet p)) = 0 -> has_payload (received (ex_packet p)) ->
  Forall atom_ok atoms -> visible atoms = atoms -> sata_replies excs_sata 0x1004 packet k 0 atoms.
Proof.
  intros Lk Ea W Es L B O Pay Ok_ V c rs Sc Rr Lr buf D.
  assert (X : an_in (excs_sata (k ++ c :: rs)) = ex_packet p).
  { unfold excs_sata. cbn [an_in]. rewrite (excs_received k c rs packet Sc Rr), Ea, app_length. cbn [List.length].
    replace ((List.length k + S (List.length rs) =? 1)%nat) with false by (symmetry; apply Nat.eqb_neq; lia).
    replace ((List.length k + S (List.length rs) =? 2)%nat) with false by (symmetry; apply Nat.eqb_neq; lia). reflexivity. }
  rewrite X in D. split; [lia|]. intros _.
  assert (Eb : buf = received (ex_packet p)).
  { apply (delivered_unique _ _ _ _ D). assert (Lz : List.length (zeros 2048) = 2048%nat) by apply repeat_length.
    replace (received (ex_packet p)) with (fill (zeros 2048) (ex_packet p)); [apply fill_delivered|].
    unfold fill, received. rewrite Lz. f_equal. unfold zeros. apply excn_skip. }
  subst buf. split; [intros [Hw _]; exact (Hw O)|]. split; [exact Pay|]. exists atoms. split; [now apply excf_carries|]. auto.
Qed.
Lemma excs_sync k packet : (2 <= List.length k)%nat -> excf_answer packet = ex_packet ex_sync -> sata_replies excs_sata 0x1004 packet k 0 excf_sync.
Proof.
  intros Lk Ea. apply (excs_replies k packet ex_sync); [exact Lk|exact Ea|wf_now|reflexivity|apply Nat.leb_le; reflexivity|vm_compute; reflexivity|vm_compute; reflexivity|
    vm_compute; repeat split; discriminate| |reflexivity]. unfold excf_sync, sync_session, status_list. excn_atoms.
Qed.
Lemma excs_ok k packet : (2 <= List.length k)%nat -> excf_answer packet = ex_packet (ex_plain 0) -> sata_replies excs_sata 0x1004 packet k 0 (no_result 0).
Proof.
  intros Lk Ea. apply (excs_replies k packet (ex_plain 0)); [exact Lk|exact Ea|wf_now|reflexivity|apply Nat.leb_le; reflexivity|vm_compute; reflexivity|vm_compute; reflexivity|
    vm_compute; repeat split; discriminate| |reflexivity]. unfold no_result, status_list. excn_atoms.
Qed.
Lemma excs_no k packet : (2 <= List.length k)%nat -> excf_answer packet = ex_packet (ex_plain 1) -> sata_replies excs_sata 0x1004 packet k 0 (no_result 1).
Proof.
  intros Lk Ea. apply (excs_replies k packet (ex_plain 1)); [exact Lk|exact Ea|wf_now|reflexivity|apply Nat.leb_le; reflexivity|vm_compute; reflexivity|vm_compute; reflexivity|
    vm_compute; repeat split; discriminate| |reflexivity]. unfold no_result, status_list. excn_atoms.
Qed.
Lemma excs_pin k packet : (2 <= List.length k)%nat -> excf_answer packet = ex_packet ex_pin -> sata_replies excs_sata 0x1004 packet k 0 (one_cell 3 (Short true false [77; 83; 73; 68])).
Proof.
  intros Lk Ea. apply (excs_replies k packet ex_pin); [exact Lk|exact Ea|wf_now|reflexivity|apply Nat.leb_le; reflexivity|vm_compute; reflexivity|vm_compute; reflexivity|
    vm_compute; repeat split; discriminate| |reflexivity]. unfold one_cell, status_list. excn_atoms.
Qed.
Theorem excs_checks k : (2 <= List.length k)%nat -> sata_checks_psid excs_sata 0x1004 k 0 excf_psid 105 0x12345678 1.
Proof.
  intros Lk. split; [|split].
  - exists (Short false false [105]), (Short false false [0x12; 0x34; 0x56; 0x78]), [].
    split; [split; [split; [wf_now|reflexivity]|right; exists [105]; auto]|]. split; [split; [split; [wf_now|reflexivity]|right; exists [0x12; 0x34; 0x56; 0x78]; auto]|].
    apply excs_sync; [exact Lk|]. vm_compute. reflexivity.
  - intros ch W L Ne. apply excs_no; [exact Lk|]. now apply excn_refuses.
  - intros c rs _ _. apply excs_ok; [rewrite app_length; lia|]. vm_compute. reflexivity.
Qed.
Theorem excs_shows k : (2 <= List.length k)%nat -> sata_shows_msid excs_sata 0x1004 k 0 [77; 83; 73; 68].
Proof.
  intros Lk. exists (Short false false [105]), 105, (Short false false [0x12; 0x34; 0x56; 0x78]), 0x12345678, [], (Short true false [77; 83; 73; 68]).
  split; [split; [split; [wf_now|reflexivity]|right; exists [105]; auto]|]. split; [split; [split; [wf_now|reflexivity]|right; exists [0x12; 0x34; 0x56; 0x78]; auto]|].
  split; [split; [split; [wf_now|reflexivity]|auto]|]. split; [apply excs_sync; [exact Lk|vm_compute; reflexivity]|].
  intros c rs _ _. apply excs_pin; [rewrite app_length; lia|vm_compute; reflexivity].
Qed.
Lemma excs_check : sata_check excs_sys = true.
Proof. vm_compute. reflexivity. Qed.

(** Every password: the PSID reverts the drive, any other is refused with status 1 (NOT_AUTHORIZED). *)
Theorem ex_C181 pw : wf pw -> 1 <= blen pw <= 400 -> exists x V d, l_drv x = Some V /\ device_of x (fun _ _ => 0) = Ok d /\
  let outcome := snd (revert_tper (drive_env V (l_dh x) (l_calls x) slept exo_kdf (fun _ => 0) 500) d pw true false []) in
  (pw = excf_psid -> outcome = Ok tt) /\ (pw <> excf_psid -> outcome = Err (ETcg 1))
  /\ snd (get_default_password (drive_env V (l_dh x) (l_calls x) slept exo_kdf (fun _ => 0) 500) d []) = Ok [77; 83; 73; 68].
Proof.
  intros W L. destruct (sata_checked _ excs_check) as (x & V & d & Ho & Hn & HV & Hd & Da). destruct inst_listed as (L1 & L2 & L3).
  exists x, V, d. split; [exact HV|]. split; [exact Hd|].
  assert (Lk : (2 <= List.length (sg_ioctls excs_sys (at_sg [] exy_path 7) x))%nat).
  { destruct (sg_opened excs_sys [] exy_path _ x 7 (exy_addresses _ _) eq_refl Ho (ext_no_nvme (at_nvme [] exy_path 7)) Hn) as (s1 & srest & c1 & rest & id & E & _). rewrite E. cbn [app List.length]. rewrite app_length. cbn [List.length]. lia. }
  assert (C16 : be16_at 4 inst_opal2 = 0x1004) by (vm_compute; reflexivity).
  pose proof (C181_psid_from_path excs_sys [] exy_path _ x 7 inst_level0 exy_features inst_opal2 (fun _ _ => 0) d slept exo_kdf (fun _ => 0) 500%nat excf_psid pw false 0%nat 105 0x12345678 1 V
    (exy_addresses _ _) eq_refl Ho (ext_no_nvme (at_nvme [] exy_path 7)) Hn excs_takes excs_bytes (fun _ => eq_refl) exo_kdf_ok Da exy_conforming L1 L2 L3 Hd HV) as P. rewrite C16 in P.
  specialize (P ltac:(lia) (excn_fast 0 ltac:(lia)) W L (excs_checks _ Lk) ltac:(lia)). cbv zeta in P |- *. destruct P as [P1 P2]. split; [exact P1|]. split; [exact P2|].
  pose proof (C181_password_from_path excs_sys [] exy_path _ x 7 inst_level0 exy_features inst_opal2 (fun _ _ => 0) d slept exo_kdf (fun _ => 0) 500%nat 0%nat [77; 83; 73; 68] V
    (exy_addresses _ _) eq_refl Ho (ext_no_nvme (at_nvme [] exy_path 7)) Hn excs_takes excs_bytes (fun _ => eq_refl) exo_kdf_ok Da exy_conforming L1 L2 L3 Hd HV) as Q. rewrite C16 in Q.
  exact (Q ltac:(lia) (excn_fast 0 ltac:(lia)) (excs_shows _ Lk)).
Qed.
Print Assumptions ex_C181.
