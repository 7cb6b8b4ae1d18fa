(** What ntddscsi.h says about the buffers handed to DeviceIoControl by the pass-through codes, on 64-bit Windows, and the ATA
    registers in them; nothing here refers to the model. *)
From Verif Require Import Base.

Definition field (off n : nat) (b : bytes) : N := le_val (slice off n b).
Definition reg (off : nat) (b : bytes) : N := nth off b 0.

(** ATA_PASS_THROUGH_DIRECT / ATA_PASS_THROUGH_EX, 48 bytes. *)
Record apt := {
  ap_length : N; ap_flags : N; ap_transfer : N; ap_timeout : N;
  ap_buffer : N;                     (* a pointer (direct) or an offset into the same buffer (buffered) *)
  ap_features : N; ap_count : N; ap_lba : N; ap_device : N; ap_command : N;      (* CurrentTaskFile *)
  ap_hob_features : N; ap_hob_count : N; ap_hob_lba : N                          (* PreviousTaskFile *)
}.
Definition apt_decode (b : bytes) : apt :=
  {| ap_length := field 0 2 b; ap_flags := field 2 2 b; ap_transfer := field 8 4 b; ap_timeout := field 12 4 b; ap_buffer := field 24 8 b;
     ap_features := reg 40 b; ap_count := reg 41 b; ap_lba := reg 42 b + 2 ^ 8 * reg 43 b + 2 ^ 16 * reg 44 b;
     ap_device := reg 45 b; ap_command := reg 46 b;
     ap_hob_features := reg 32 b; ap_hob_count := reg 33 b; ap_hob_lba := reg 34 b + 2 ^ 8 * reg 35 b + 2 ^ 16 * reg 36 b |}.
(** AtaFlags bits *)
Definition flag_data_in : N := 1.
Definition flag_data_out : N := 2.
Definition flag_48bit : N := 3.
Definition flag_dma : N := 4.

(** SCSI_PASS_THROUGH_DIRECT, 56 bytes; the sense bytes are at SenseInfoOffset. *)
Record spt := {
  sp_length : N; sp_cdb : bytes; sp_sense_length : N; sp_sense_offset : N; sp_data_in : N; sp_transfer : N; sp_timeout : N; sp_buffer : N
}.
Definition spt_decode (b : bytes) : spt :=
  {| sp_length := field 0 2 b; sp_cdb := slice 36 (N.to_nat (reg 6 b)) b; sp_sense_length := reg 7 b; sp_sense_offset := field 32 4 b;
     sp_data_in := reg 8 b; sp_transfer := field 12 4 b; sp_timeout := field 16 4 b; sp_buffer := field 24 8 b |}.
