(** include/uapi/asm-generic/ioctl.h and include/uapi/linux/nvme_ioctl.h as numbers and offsets; nothing here refers to the model. *)
From Verif Require Import Base.

(** A little-endian field of [sz] bytes at offset [off]. *)
Definition le_at (off sz : nat) (arg : bytes) : N := le_val (slice off sz arg).

(** struct nvme_passthru_cmd / nvme_admin_cmd *)
Record uapi_passthru := {
  up_opcode : N; up_flags : N; up_rsvd1 : N; up_nsid : N; up_cdw2 : N; up_cdw3 : N; up_metadata : N; up_addr : N;
  up_metadata_len : N; up_data_len : N; up_cdw10 : N; up_cdw11 : N; up_cdw12 : N; up_cdw13 : N; up_cdw14 : N; up_cdw15 : N;
  up_timeout_ms : N; up_result : N
}.
Definition read_passthru (b : bytes) : uapi_passthru :=
  {| up_opcode := le_at 0 1 b; up_flags := le_at 1 1 b; up_rsvd1 := le_at 2 2 b; up_nsid := le_at 4 4 b; up_cdw2 := le_at 8 4 b;
     up_cdw3 := le_at 12 4 b; up_metadata := le_at 16 8 b; up_addr := le_at 24 8 b; up_metadata_len := le_at 32 4 b;
     up_data_len := le_at 36 4 b; up_cdw10 := le_at 40 4 b; up_cdw11 := le_at 44 4 b; up_cdw12 := le_at 48 4 b; up_cdw13 := le_at 52 4 b;
     up_cdw14 := le_at 56 4 b; up_cdw15 := le_at 60 4 b; up_timeout_ms := le_at 64 4 b; up_result := le_at 68 4 b |}.

(** struct nvme_user_io *)
Record uapi_user_io := {
  ui_opcode : N; ui_flags : N; ui_control : N; ui_nblocks : N; ui_rsvd : N; ui_metadata : N; ui_addr : N; ui_slba : N;
  ui_dsmgmt : N; ui_reftag : N; ui_apptag : N; ui_appmask : N
}.
Definition read_user_io (b : bytes) : uapi_user_io :=
  {| ui_opcode := le_at 0 1 b; ui_flags := le_at 1 1 b; ui_control := le_at 2 2 b; ui_nblocks := le_at 4 2 b; ui_rsvd := le_at 6 2 b;
     ui_metadata := le_at 8 8 b; ui_addr := le_at 16 8 b; ui_slba := le_at 24 8 b; ui_dsmgmt := le_at 32 4 b; ui_reftag := le_at 36 4 b;
     ui_apptag := le_at 40 2 b; ui_appmask := le_at 42 2 b |}.

(** _IOC(dir, type, nr, size): nr in bits 0-7, type in bits 8-15, size in bits 16-29, dir (1 = write, 2 = read) in bits 30-31. *)
Definition uapi_ioc (dir t nr size : N) : N := nr + 2 ^ 8 * t + 2 ^ 16 * size + 2 ^ 30 * dir.

(** An NVMe command as the controller sees it, out of the kernel structure: everything that is not listed is 0. *)
Definition plain_view (opcode nsid addr len cdw10 cdw11 : N) : uapi_passthru :=
  {| up_opcode := opcode; up_flags := 0; up_rsvd1 := 0; up_nsid := nsid; up_cdw2 := 0; up_cdw3 := 0; up_metadata := 0; up_addr := addr;
     up_metadata_len := 0; up_data_len := len; up_cdw10 := cdw10; up_cdw11 := cdw11; up_cdw12 := 0; up_cdw13 := 0; up_cdw14 := 0;
     up_cdw15 := 0; up_timeout_ms := 0; up_result := 0 |}.
