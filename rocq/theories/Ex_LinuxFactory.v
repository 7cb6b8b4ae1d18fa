(** Concrete cases meeting the hypotheses of C75-C79. *)
From Verif Require Import Base M_Buffer M_Struc M_Ata M_TcgDevice M_DriveHandle M_Strings M_LinuxInfo M_LinuxFactory
  Spec_Drive Prop_Drive Ex_Drive Spec_LinuxFactory P_Strings P_LinuxFactory Prop_LinuxFactory P_LinuxEnum Prop_LinuxEnum.
From Coq Require Import Permutation.

(** A machine with a loop device, a disk, a CD-ROM and an NVMe disk. *)
Definition exl_names : list bytes := [str "loop0"; str "nvme0n1"; str "sda"; str "sr0"; str "zram0"].
Definition exl_current (h : lhist) : bytes := fold_left (fun p e => match e with LOpen q => q | _ => p end) h [].
Definition exl_ata : opened := {| o_drv := steady (conforming (zeros 16)); o_type := ata_type |}.
Definition exl_ids : id_answers :=
  {| ia_dir := Some [str "ata-DISK_MODEL_X_S123"; str "nvme-eui.0011"; str "wwn-0x50"; str "usb-Stick_Y"];
     ia_link := fun n => if beq n (str "usb-Stick_Y") then Some (str "/dev/sdb") else Some (str "/dev/sda");
     ia_order := @rev _;
     ia_file := fun f => if beq f (str "/sys/block/sda/device/vendor") then Some (str "ATA     " ++ [10]) else None |}.
Definition exl_sector : bytes := zeros 440 ++ [0x78; 0x56; 0x34; 0x12] ++ zeros 66 ++ [0x55; 0xaa].
Definition exl_disk : disk_answers :=
  {| da_open := None; da_table := TMbr []; da_readat := fun _ => (exl_sector, (512, None)); da_ssz := Some 512; da_size := Some 1000204886016; da_geo := None |}.
Definition exl_world : world :=
  {| w_open := fun h => if beq (exl_current h) (str "/dev/zram0") then inl (EMsg "busy") else inr (N.of_nat (List.length h));
     w_basic := fun _ => exl_disk; w_ids := fun _ => exl_ids;
     w_probe := fun h => if beq (exl_current h) (str "/dev/sda") then inr exl_ata else inl (EMsg "no");
     w_dir := fun _ => inr exl_names; w_mode := fun _ => Some 0x61b0 |}.

Example exl_enum : exists h' a b, enum_drives exl_world [] = (h', Ok [a; b]) /\
  map (fun x => (i_path (p_info (l_dh x)), l_fd x, has_driver x)) [a; b] = [(str "/dev/nvme0n1", 3, false); (str "/dev/sda", 9, true)] /\
  texts (p_info (l_dh b)) = (str "DISK_MODEL_X", str "S123", []) /\ l_vendor b = str "ATA" /\ l_mbr b = 0x12345678 /\ l_capacity b = 1000204886016%Z /\
  filter is_lclose h' = [LClose 9].
Proof. do 3 eexists. split; [vm_compute; reflexivity|]. vm_compute. repeat split. Qed.
Example exl_ignored : ignored_id (str "nvme-eui.0011") /\ ignored_id (str "wwn-0x50") /\ ~ ignored_id (str "ata-DISK_MODEL_X_S123") /\ ~ ignored_id (str "usb-Stick_Y").
Proof. rewrite <- !skip_pat_iff. vm_compute. repeat split; discriminate. Qed.
Example exl_parts : id_parts (str "ata-DISK_MODEL_X_S123") (str "DISK_MODEL_X") (str "S123").
Proof. exists (str "ata-DISK_MODEL_X"). split; [reflexivity|]. split; [vm_compute; intuition discriminate|]. left. exists (str "ata"). split; [reflexivity|vm_compute; intuition discriminate]. Qed.
Example exl_shuffles : shuffles (ia_order exl_ids).
Proof. intros m. apply Permutation_rev. Qed.
Example exl_any_match : (forall k, counts [str "ata-DISK_MODEL_X_S123"; str "nvme-eui.0011"; str "wwn-0x50"; str "usb-Stick_Y"] k -> ia_link exl_ids k <> None)
  /\ counts [str "ata-DISK_MODEL_X_S123"; str "nvme-eui.0011"; str "wwn-0x50"; str "usb-Stick_Y"] (str "ata-DISK_MODEL_X_S123")
  /\ ia_link exl_ids (str "ata-DISK_MODEL_X_S123") = Some (str "/dev/sda").
Proof.
  split; [intros k _; cbn [exl_ids ia_link]; destruct (beq _ _); discriminate|]. split; [|reflexivity].
  split; [now left|]. apply exl_ignored.
Qed.
(** a silent driver keeps the by-id texts (C75_identification), one with identify data replaces them *)
Example exl_identify : exists h' x, open_by_fd {| w_open := fun _ => inr 3; w_basic := fun _ => exl_disk; w_ids := fun _ => exl_ids;
     w_probe := fun _ => inr {| o_drv := {| v_io := v_io (steady (conforming (zeros 16))); v_tf := fun _ => tf0; v_identity := fun _ => str "XXXXXXXX" ++ zeros 46 ++ str "OMED LLLL" ++ zeros 1000;
        v_log := fun _ => ([], None); v_type := fun _ => 1; v_name := fun _ => str "d" |}; o_type := ata_type |}; w_dir := fun _ => inr []; w_mode := fun _ => None |} [] 3 (str "/dev/sda") = (h', Ok x)
  /\ i_model (p_info (l_dh x)) = str "MODEL LL" ++ [0] ++ str "L" /\ l_driving x = 1.
Proof. do 2 eexists. split; [vm_compute; reflexivity|]. vm_compute. split; reflexivity. Qed.
