(** What "looking at a drive" means: which calls a program makes, and which requests leave the drive unchanged. *)
From Verif Require Import Base M_Ata M_DriveHandle M_SgDriver M_NvmeLinux Spec_Sg Spec_NvmeLinux.

(** Calls of a program that only looks: Init, Close, GetDrivingType, GetDriverName, TcgDiscovery0, SecurityCommand in the receiving
    direction, NvmeGetLogPage.  The arguments fit their Go types (a byte, a uint16, two uint32, a buffer below 4 GiB).  The two calls left out are
    SecurityCommand with rw = true and AtaDoTaskFileCmd, which sends whatever command its caller asks for. *)
Definition inspects (o : hop) : Prop :=
  match o with
  | HInit | HClose | HType | HName | HDiscovery => True
  | HSec rw dma protocol comId buffer secs => rw = false /\ protocol < 256 /\ comId < 2 ^ 16 /\ blen buffer < 2 ^ 32
  | HTask _ _ _ _ _ => False
  | HLog nsid logId rae size => nsid < 2 ^ 32 /\ logId < 2 ^ 32
  end.

(** ACS: IDENTIFY DEVICE, TRUSTED RECEIVE, TRUSTED RECEIVE DMA. *)
Definition ata_reads : list N := [0xEC; 0x5C; 0x5D].
(** NVMe admin commands: Get Log Page, Identify, Security Receive.  (Security Send is 81h.) *)
Definition nvme_reads : list N := [0x02; 0x06; 0x82].

(** A request through SG_IO that reads: the transfer direction is SG_DXFER_FROM_DEV and the command is SECURITY PROTOCOL IN, or an ATA
    PASS-THROUGH of one of the three reading commands marked as coming from the device. *)
Definition sg_reads (c : sg_call) : Prop :=
  sg_dir c = (-3)%Z
  /\ ((exists s, security_decode (sg_cdb c) = Some s /\ sc_out s = false)
      \/ (exists a, sat_decode (sg_cdb c) = Some a /\ sat_from_device a = true /\ In (sat_command a) ata_reads)).
(** An NVMe ioctl that reads: NVME_IOCTL_ADMIN_CMD with one of the three reading opcodes. *)
Definition nv_reads (c : nv_call) : Prop := nc_req c = 0xC0484E41 /\ In (up_opcode (read_passthru (nc_arg c))) nvme_reads.
