(** Concrete cases meeting the hypotheses of C80-C84. *)
From Verif Require Import Base M_Buffer M_Struc M_Ata M_TcgDevice M_DriveHandle M_Strings M_LinuxInfo M_LinuxFactory M_LinuxVolume
  Spec_LinuxFactory P_Strings Spec_LinuxVolume P_LinuxVolume P_LinuxFactory Prop_LinuxFactory Prop_LinuxVolume Ex_LinuxFactory.
From Coq Require Import Permutation.

(** Two NVMe partitions (one mounted twice), a SATA partition, a tmpfs. *)
Definition exv_text : bytes :=
  str "/dev/nvme0n1p2 / ext4 rw 0 0" ++ [10] ++ str "tmpfs /run tmpfs rw 0 0" ++ [10] ++ str "/dev/nvme0n1p2 /home ext4 rw 0 0" ++ [10]
  ++ str "/dev/sda1 /mnt xfs rw 0 0" ++ [10] ++ str "/dev/nvme0n1p9 /x vfat rw 0 0" ++ [13; 10].
Definition exv_parts : list part :=
  [{| pt_start := 1048576; pt_type := str "c12a7328"; pt_guid := str "aa-01"; pt_mbr_type := 0; pt_bootable := false |};
   {| pt_start := 2097152; pt_type := str "0fc63daf"; pt_guid := str "bb-02"; pt_mbr_type := 0; pt_bootable := false |}].
Definition exv_disk : disk_answers :=
  {| da_open := None; da_table := TGpt (str "ABCD") exv_parts; da_readat := fun _ => ([], (0, None)); da_ssz := Some 512; da_size := Some 1000204886016; da_geo := None |}.
Definition exv_sys : world :=
  {| w_open := fun h => inr (N.of_nat (List.length h)); w_basic := fun _ => exv_disk; w_ids := fun _ => exl_ids;
     w_probe := fun _ => inl (EMsg "no"); w_dir := fun _ => inr []; w_mode := fun _ => None |}.
Definition exv_world : vworld := {| vw := exv_sys; vw_mounts := fun _ => inr {| mt_text := exv_text; mt_error := None |} |}.
Definition exv_found : pinfo :=
  {| pi_device := str "/dev/nvme0n1p2"; pi_parent := str "/dev/nvme0n1"; pi_start := 2097152; pi_size := 2097152; pi_style := 2;
     pi_gpt := Some (str "{0FC63DAF}", str "{BB-02}"); pi_mbr := None |}.
Definition exv_volumes : volumes :=
  [(str "/dev/nvme0n1p2", {| vo_path := str "/dev/nvme0n1p2"; vo_fs := str "ext4"; vo_mounts := [str "/"; str "/home"]; vo_part := Some exv_found |});
   (str "tmpfs", {| vo_path := str "tmpfs"; vo_fs := str "tmpfs"; vo_mounts := [str "/run"]; vo_part := None |});
   (str "/dev/sda1", {| vo_path := str "/dev/sda1"; vo_fs := str "xfs"; vo_mounts := [str "/mnt"]; vo_part := None |});
   (str "/dev/nvme0n1p9", {| vo_path := str "/dev/nvme0n1p9"; vo_fs := str "vfat"; vo_mounts := [str "/x"]; vo_part := None |})].
Example exv_enum : enum_volumes exv_world [] = ([LMounts; LOpen (str "/dev/nvme0n1"); LBasic 2 (str "/dev/nvme0n1"); LOpen (str "/dev/nvme0n1"); LBasic 4 (str "/dev/nvme0n1");
   LOpen (str "/dev/nvme0n1"); LBasic 6 (str "/dev/nvme0n1")], Ok exv_volumes).
Proof. vm_compute. reflexivity. Qed.
(** reversing the walk loses the first volume *)
Example exv_lost : forall h, open_drive_by_volume_path exv_sys (@rev _) exv_volumes h (str "/dev/nvme0n1p2/") = (h, None).
Proof. intros h. reflexivity. Qed.
Example exv_lost_hyp : slash_trimmed (str "/dev/nvme0n1p2/") (str "/dev/nvme0n1p2") /\ slash_trimmed (str "/dev/nvme0n1p2") (str "/dev/nvme0n1p2") /\ ~ slash_trimmed (str "tmpfs") (str "/dev/nvme0n1p2").
Proof. rewrite !slash_trimmed_iff. vm_compute. repeat split. discriminate. Qed.
Example exv_name : partition_name (str "/dev/nvme0n1p2") (str "/dev/nvme0n1") (str "2") /\ ~ exists p ds, partition_name (str "/dev/sda1") p ds.
Proof. split; [apply partition_match_iff; reflexivity|]. intros (p & ds & H). apply partition_match_iff in H. discriminate. Qed.
(** partition 0 *)
Definition exv_zero : vworld := {| vw := exv_sys; vw_mounts := fun _ => inr {| mt_text := str "/dev/loop0p0 / ext4"; mt_error := None |} |}.
Example exv_zero_panics : snd (enum_volumes exv_zero []) = Panic.
Proof. vm_compute. reflexivity. Qed.
Example exv_zero_hyp : forall h0, exists seg, names_zero exv_sys h0 (str "/dev/loop0p0") seg.
Proof.
  intros h0. eexists. exists (str "/dev/loop0"), (str "0"), (N.of_nat (List.length (h0 ++ [LOpen (str "/dev/loop0")]))). do 2 eexists.
  split; [apply partition_match_iff; reflexivity|]. split; [reflexivity|]. split; [reflexivity|]. split; [reflexivity|]. split; reflexivity.
Qed.
(** a read error inside a line is reported, one after a line is not *)
Definition exv_cut (t : bytes) : vworld := {| vw := exv_sys; vw_mounts := fun _ => inr {| mt_text := t; mt_error := Some (EMsg "EIO") |} |}.
Example exv_midline : snd (enum_volumes (exv_cut (str "tmpfs /run tm")) []) = Err (EMsg "EIO")
  /\ snd (enum_volumes (exv_cut (str "tmpfs /run tmpfs" ++ [10])) []) = Ok [(str "tmpfs", {| vo_path := str "tmpfs"; vo_fs := str "tmpfs"; vo_mounts := [str "/run"]; vo_part := None |})].
Proof. vm_compute. split; reflexivity. Qed.
Example exv_midline_hyp : text_lines (str "tmpfs /run tm") [] (str "tmpfs /run tm") /\ short (str "tmpfs /run tm").
Proof. split; [|vm_compute; reflexivity]. split; [reflexivity|]. split; [constructor|]. vm_compute. intuition discriminate. Qed.
