(** Specification vocabulary for reading a drive's health data on Windows; ntddscsi.h, ATA8-ACS and SAT-3. *)
From Verif Require Import Base M_WinPass M_WinNvme Spec_Sg Spec_WinPass Prop_Sg Prop_WinPass.

(** The size of the parameter block of a pass-through request: ATA_PASS_THROUGH_*, or SCSI_PASS_THROUGH_* with sense buffer. *)
Definition header_size (k : wkind) : nat := match k with KAta => 48%nat | _ => 96%nat end.
(** ... whose control code says that the data go through a memory pointer instead of following the parameters. *)
Definition is_direct (c : wcall) : Prop := wc_code c = 0x4d030 \/ wc_code c = 0x4d014.
(** SMART READ DATA (D0h) or READ THRESHOLDS (D1h): command B0h, LBA C24F00h, one sector of 512 bytes read.  The SCSI form names the command
    right but asks for protocol 0, a hardware reset, instead of 4, PIO data-in. *)
Definition win_smart_request (k : wkind) (hd feature : N) (c : wcall) : Prop :=
  wc_handle c = hd /\
  match k with
  | KAta => In (wc_code c) [0x4d030; 0x4d02c] /\ let q := apt_decode (firstn 48 (wc_in c)) in
      ap_command q = 0xB0 /\ ap_features q = feature /\ ap_lba q = 0xC24F00 /\ ap_count q = 1 /\ ap_device q = 0 /\ ap_transfer q = 512
      /\ (forall b, N.testbit (ap_flags q) b = true <-> b = flag_data_in)
  | _ => In (wc_code c) [0x4d014; 0x4d004] /\ let q := spt_decode (firstn 96 (wc_in c)) in
      sp_data_in q = 1 /\ sp_transfer q = 512 /\ exists a, sat_decode (sp_cdb q) = Some a
      /\ sat_command a = 0xB0 /\ sat_features a = feature /\ sat_lba a = 0xC24F00 /\ sat_count a = 1 /\ sat_device a = 0 /\ sat_extend a = false
      /\ sat_protocol a = 0
  end.
(** [k] ends with the request [c]: Windows reports success and hands over a full block. *)
Definition hands_over (S : wsys) (kd : wkind) (k : whist) (c : wcall) (block : bytes) : Prop :=
  win_ok (s_io S k) /\ List.length block = 512%nat
  /\ (is_direct c -> wa_mem (s_io S k) = block) /\ (~ is_direct c -> skipn (header_size kd) (wa_out (s_io S k)) = block).
(** [k] ends with the request [c], which counts as successful: Windows says so; the SCSI driver also wants sense key 0, the ATA driver the
    status bits ERR and DRQ clear, but looks at them only after a direct request. *)
Definition taken_as_success (S : wsys) (kd : wkind) (k : whist) (c : wcall) : Prop :=
  win_ok (s_io S k) /\
  forall p, delivered (firstn (header_size kd) (wc_in c)) (wa_out (s_io S k)) p ->
  match kd with
  | KAta => is_direct c -> N.testbit (reg 46 p) 0 = false /\ N.testbit (reg 46 p) 3 = false
  | _ => nibble2 (slice 60 32 p) = 0
  end.
