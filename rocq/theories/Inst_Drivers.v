(** The theorems on one security command over each driver (C72, C74, C96, C97, C98) and C51 applied to concrete drives, every premise supplied. *)
From Verif Require Import Base M_Buffer M_Struc M_Ata M_TcgToken M_TcgCommand M_TcgDevice M_TcgSession M_DriveHandle M_Cdb M_SgDriver M_SgHandle M_NvmeLinux M_TcgOnDrive
  Spec_Drive P_DriveHandle Prop_Drive Spec_Identity Prop_Identity Spec_NvmeLinux Spec_Sg Prop_Sg Prop_NvmeLinux Prop_SgHandle M_WinPass M_WinNvme M_WinInfo Spec_WinPass Spec_WinNvme Prop_WinPass Prop_WinNvme Prop_WinDrive
  Prop_WinInfo Ex_Drive Ex_TcgSession Ex_TcgOnDrive Ex_TcgOnWin Ex_Identity Inst_Tcg.

Lemma pair12 {A B C} (x : A * (B * C)) : x = (fst x, (fst (snd x), snd (snd x))).
Proof. now destruct x as [a [b c]]. Qed.
Lemma not_nil {A} (a : A) l : a :: l <> [].
Proof. discriminate. Qed.
(** sending and receiving on NVMe and SATA under Linux ... *)
Example inst_C72_send := C72_security_over_nvme exo_nvme 7 (fun _ => 4096) [] (zeros 4096) exo_p [] true false 1 0x1004 [1; 2; 3; 4] 5 _ _ _
  (proj1 exo_hyps) eq_refl eq_refl eq_refl (fun _ => eq_refl) (pair12 _).
Example inst_C72_receive := C72_security_over_nvme exo_nvme 7 (fun _ => 4096) [] (zeros 4096) exo_p [] false false 1 0x1004 (zeros 64) 5 _ _ _
  (proj1 exo_hyps) eq_refl eq_refl eq_refl (fun _ => eq_refl) (pair12 _).
Lemma inst_over_sg2 : over_sg exo_ps.
Proof. reflexivity. Qed.
Example inst_C74_send := C74_security_over_sg exo_sg (fun _ => 4096) [] (zeros 512) exo_ps [] true false 1 0x1004 [1; 2; 3; 4] 5 _ _ _
  inst_over_sg2 eq_refl eq_refl eq_refl (not_nil _ _) (pair12 _).
Example inst_C74_receive := C74_security_over_sg exo_sg (fun _ => 4096) [] (zeros 512) exo_ps [] false false 1 0x1004 (zeros 64) 5 _ _ _
  inst_over_sg2 eq_refl eq_refl eq_refl (not_nil _ _) (pair12 _).
(** ... and over the miniport, SCSI and ATA under Windows *)
Example inst_C96 := C96_security_over_miniport exw_mini exw_a (exw_d KNvmeWin) [] exw_pn [] true false 1 0x1004 [1; 2; 3; 4] 5 _ _ _
  eq_refl (proj1 exw_mhyps) eq_refl eq_refl eq_refl (pair12 _).
Example inst_C97_scsi := C97_security_over_scsi exw_scsi exw_a (exw_d KScsi) [] exw_ps [] true false 1 0x1004 [1; 2; 3; 4] 5 _ _ _
  (or_introl eq_refl) (proj1 (proj2 exw_hyps)) (proj1 (proj2 (proj2 exw_hyps))) eq_refl eq_refl eq_refl (not_nil _ _) (pair12 _).
Lemma inst_over_ata : over_win (exw_d KAta) exw_ps.
Proof. reflexivity. Qed.
Example inst_C97_ata := C97_security_over_ata exw_scsi exw_a (exw_d KAta) [] exw_ps [] true false 1 0x1004 (zeros 512) 5 _ _ _
  eq_refl inst_over_ata (proj1 (proj2 (proj2 exw_hyps))) eq_refl eq_refl (not_nil _ _) (pair12 _).
(** the caller's bytes 1, 2, 3, 4 do not reach the drive *)
Example inst_C98 := C98_sends_zeros_refuted exw_scsi exw_a (exw_d KScsi) [] exw_ps [] false 1 0x1004 [1; 2; 3; 4] 5 _ _ _
  (proj1 exw_hyps) (proj1 (proj2 exw_hyps)) (proj1 (proj2 (proj2 exw_hyps))) eq_refl eq_refl eq_refl (not_nil _ _) (pair12 _).
(** from the handle to the device *)
Example inst_C51 : exists p' d, init exd_ata exd_ata_handle [] = ([CIdentity; CSec false false 1 1 (zeros 2048) 3], (p', Ok tt))
  /\ new_tcg_device (fst (get_tcg_level0_info_and_serial p')) (snd (get_tcg_level0_info_and_serial p')) (fun _ _ => 0) = Ok d
  /\ get_device_type d = 3 /\ is_locking_supported d = true.
Proof.
  destruct ex_C51_hypotheses as (Hi & Hw & Hl).
  destruct (C51_init_then_device exd_ata {| is_ata := true; is_nvme := false |} exd_ata_handle [] _ exd_header exd_features (zeros (2048 - 90)) (fun _ _ => 0) eq_refl Hi
    ltac:(intros _; apply Nat.leb_le; vm_compute; reflexivity) ltac:(discriminate) ltac:(repeat constructor; try (vm_compute; reflexivity); discriminate) Hw Hl ltac:(vm_compute; reflexivity) ltac:(vm_compute; reflexivity))
    as (p' & d & A & B & Ty & _ & Lk & _).
  exists p', d. split; [exact A|]. split; [exact B|]. split; [rewrite Ty; vm_compute; reflexivity|rewrite Lk; vm_compute; reflexivity].
Qed.
