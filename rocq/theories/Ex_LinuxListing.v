(** Non-vacuity for C139: a system with an NVMe drive, a SATA drive, a loop device, a CD-ROM and a tape. *)
From Verif Require Import Base M_Buffer M_Struc M_Ata M_TcgDevice M_DriveHandle M_Cdb M_SgDriver M_SgHandle M_NvmeLinux M_Strings M_LinuxInfo M_LinuxFactory
  M_LinuxSystem Spec_Drive Prop_Drive Spec_LinuxFactory P_LinuxFactory Prop_LinuxFactory Spec_NvmeLinux Spec_Sg P_Sg Prop_Sg
  Prop_NvmeLinux Prop_SgHandle Spec_LinuxSystem P_LinuxSystem Prop_LinuxSystem Prop_LinuxListing Ex_LinuxSystem.

Definition exq_names : list bytes := [str "loop0"; str "nvme0n1"; str "sda"; str "sdb"; str "sr0"; str "st0"].
Fixpoint last_open (rh : lhist) : bytes := match rh with LOpen p :: _ => p | _ :: r => last_open r | [] => [] end.
Definition exq_world : world :=
  {| w_open := fun h => inr (N.of_nat (List.length h)); w_basic := w_basic refusing; w_ids := w_ids refusing; w_probe := fun _ => inl (EMsg "");
     w_dir := fun _ => inr exq_names; w_mode := fun h => match rev h with LStat p :: _ => if beq p (str "/dev/st0") then Some 0x2180 else Some 0x61B0 | _ => None end |}.
Definition exq_sys : system :=
  {| sy_world := exq_world;
     sy_nvme := fun h => if beq (last_open (rev h)) (str "/dev/nvme0n1") then exy_nvme else exy_refuse_nvme; sy_nvme_addr := fun _ _ => 4096;
     sy_sg := fun h => if beq (last_open (rev h)) (str "/dev/sda") then exy_sata else exy_refuse_sg; sy_sg_addr := fun _ _ => 8192 |}.
Example exq_setting : addresses_ok exq_sys /\ w_dir (sy_world exq_sys) ([] ++ [LReadDir]) = inr exq_names.
Proof. split; [split; intros; reflexivity|reflexivity]. Qed.
(** Three of the six names are listed; the third has no driver (and no texts), the others their own. *)
Example exq_listing : match snd (enum_drives (linux exq_sys) []) with
  | Ok xs => map (fun x => (i_path (p_info (l_dh x)), l_driver_name x, texts (p_info (l_dh x)), l_opal2 (i_tcg (p_info (l_dh x))))) xs
             = [(str "/dev/nvme0n1", str "LinuxNvmeDriver", (str "ACME NVMe 1TB", str "S1234567890ABCDEF", str "FW01"), true);
                (str "/dev/sda", str "LinuxScsiDriver", (str "ACME SATA", str "23 1", str "FW03"), true);
                (str "/dev/sdb", [], ([], [], []), false)]
  | _ => False
  end.
Proof. vm_compute. reflexivity. Qed.
