(** Model of the task file types of ata/types.go:112-131. *)
From Verif Require Import Base.

(** ata/types.go:115-121 *)
Record regs := { g_feat : N; g_nsect : N; g_lbal : N; g_lbam : N; g_lbah : N }.
Definition regs0 : regs := {| g_feat := 0; g_nsect := 0; g_lbal := 0; g_lbam := 0; g_lbah := 0 |}.

(** ata/types.go:123-131 *)
Record tf := { t_dev : N; t_command : N; t_error : N; t_status : N; t_lba48 : N; t_lob : regs; t_hob : regs }.
Definition tf0 : tf :=
  {| t_dev := 0; t_command := 0; t_error := 0; t_status := 0; t_lba48 := 0; t_lob := regs0; t_hob := regs0 |}.

(** ata/types.go:26-29 *)
Definition ATA_OP_TRUSTED_RECV : N := 0x5c.
Definition ATA_OP_TRUSTED_RECV_DMA : N := 0x5d.
Definition ATA_OP_TRUSTED_SEND : N := 0x5e.
Definition ATA_OP_TRUSTED_SEND_DMA : N := 0x5f.
