(** Windows: DeviceIoControl requests that leave the drive unchanged. *)
From Verif Require Import Base M_WinPass Spec_Sg Spec_WinPass Spec_WinNvme Spec_Inspect.

(** IOCTL_STORAGE_GET_DEVICE_NUMBER, IOCTL_DISK_GET_DRIVE_GEOMETRY_EX, IOCTL_DISK_GET_DRIVE_LAYOUT_EX, IOCTL_STORAGE_QUERY_PROPERTY,
    IOCTL_SCSI_GET_ADDRESS: questions to Windows about the device. *)
Definition win_queries : list N := [0x2d1080; 0x700a0; 0x70050; 0x2d1400; 0x41018].
(** A pass-through request that reads, by its own direction field and by its command.  For ATA PASS-THROUGH packets the packet's own
    T_DIR bit is not looked at: it is never set (C88). *)
Definition win_reads (c : wcall) : Prop :=
  In (wc_code c) win_queries
  \/ (wc_code c = 0x4d008                                                       (* IOCTL_SCSI_MINIPORT *)
      /\ mp_direction (miniport_decode (wc_in c)) = 2 /\ In (mp_opcode (miniport_decode (wc_in c))) nvme_reads)
  \/ (In (wc_code c) [0x4d014; 0x4d004]                                         (* IOCTL_SCSI_PASS_THROUGH_DIRECT, _PASS_THROUGH *)
      /\ let q := spt_decode (firstn 96 (wc_in c)) in
         sp_data_in q = 1
         /\ ((exists s, security_decode (sp_cdb q) = Some s /\ sc_out s = false)
             \/ (exists a, sat_decode (sp_cdb q) = Some a /\ In (sat_command a) ata_reads)))
  \/ (In (wc_code c) [0x4d030; 0x4d02c]                                         (* IOCTL_ATA_PASS_THROUGH_DIRECT, _PASS_THROUGH *)
      /\ let q := apt_decode (firstn 48 (wc_in c)) in
         N.testbit (ap_flags q) flag_data_in = true /\ N.testbit (ap_flags q) flag_data_out = false /\ In (ap_command q) ata_reads).

(** SAT-3 12.2.2.2: the PROTOCOL field of an ATA PASS-THROUGH packet; 0h asks the SATL for a hardware reset of the device, whatever the
    rest of the packet says. *)
Definition asks_for_reset (c : wcall) : Prop :=
  In (wc_code c) [0x4d014; 0x4d004]
  /\ exists a, sat_decode (sp_cdb (spt_decode (firstn 96 (wc_in c)))) = Some a /\ sat_protocol a = 0.
