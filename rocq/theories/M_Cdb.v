(** Model of the CDB bit-field accessors: plat_linux/types_ata_passthu.go and plat_linux/types_cdb.go (the files
    plat_win/ata_passthu_types.go and plat_win/cdb_types.go have the same bodies), plat_linux/sg_types.go:34-55 and
    scsi/types.go:11-48. *)
From Verif Require Import Base M_Buffer M_Ata.

(** The two flag bytes of a CDB; the accessors touch nothing else. *)
Record cdbf := { b01 : N; b02 : N }.
Definition cdbf0 : cdbf := {| b01 := 0; b02 := 0 |}.
Definition with_b01 (c : cdbf) (v : N) : cdbf := {| b01 := v; b02 := b02 c |}.
Definition with_b02 (c : cdbf) (v : N) : cdbf := {| b01 := b01 c; b02 := v |}.
(** ^byte(m) *)
Definition not8 (m : N) : N := 255 - m.

(** plat_linux/types_ata_passthu.go:48-50 and 147-149 *)
Definition get_protocol (c : cdbf) : N := N.land (N.shiftr (b01 c) 1) 0x0F.
(** types_ata_passthu.go:52-54 and 151-153 *)
Definition set_protocol (c : cdbf) (v : N) : cdbf :=
  with_b01 c (N.lor (N.land (b01 c) 0xE1) (N.shiftl (N.land v 0x0F) 1)).
(** types_ata_passthu.go:56-58 and 155-157 *)
Definition get_multiple_count (c : cdbf) : N := N.land (N.shiftr (b01 c) 5) 0x07.
(** types_ata_passthu.go:60-62 and 159-161: writes B02, from B01 *)
Definition set_multiple_count (c : cdbf) (v : N) : cdbf := with_b02 c (N.lor (N.land (b01 c) 0x1F) (N.land v 0x07)).
(** types_ata_passthu.go:64-66 and 163-165 *)
Definition get_t_length (c : cdbf) : N := N.land (b02 c) 0x03.
(** types_ata_passthu.go:68-70 and 167-169 *)
Definition set_t_length (c : cdbf) (v : N) : cdbf := with_b02 c (N.lor (N.land (b02 c) 0xFC) (N.land v 0x03)).
(** types_ata_passthu.go:72-74 and 171-173 *)
Definition is_byte_block (c : cdbf) : bool := bit_set (b02 c) 0x04.
(** types_ata_passthu.go:76-82 and 175-181 *)
Definition set_byte_block (c : cdbf) (v : bool) : cdbf :=
  with_b02 c (if v then N.lor (b02 c) 0x04 else N.land (b02 c) (not8 0x04)).
(** types_ata_passthu.go:84-86 and 183-185 *)
Definition is_t_dir (c : cdbf) : bool := bit_set (b02 c) 0x08.
(** types_ata_passthu.go:88-94 and 187-193 *)
Definition set_t_dir (c : cdbf) (v : bool) : cdbf :=
  with_b02 c (if v then N.lor (b02 c) 0x08 else N.land (b02 c) (not8 0x08)).
(** types_ata_passthu.go:96-98 and 195-197 *)
Definition is_ck_cond (c : cdbf) : bool := bit_set (b02 c) 0x20.
(** types_ata_passthu.go:100-106 and 199-205 *)
Definition set_ck_cond (c : cdbf) (v : bool) : cdbf :=
  with_b02 c (if v then N.lor (b02 c) 0x20 else N.land (b02 c) (not8 0x20)).
(** types_ata_passthu.go:108-110 and 207-209 *)
Definition get_offline (c : cdbf) : N := N.land (N.shiftr (b02 c) 6) 0x03.
(** types_ata_passthu.go:112-114 and 211-213; the shift of a byte keeps 8 bits *)
Definition set_offline (c : cdbf) (v : N) : cdbf :=
  with_b02 c (N.lor (N.land (b02 c) 0x3F) (N.shiftl (N.land v 0x03) 6)).
(** types_ata_passthu.go:135-137, 16-byte CDB only *)
Definition is_extend (c : cdbf) : bool := bit_set (b02 c) 0x01.
(** types_ata_passthu.go:139-145, 16-byte CDB only *)
Definition set_extend (c : cdbf) (v : bool) : cdbf :=
  with_b02 c (if v then N.lor (b02 c) 0x01 else N.land (b02 c) (not8 0x01)).

(** CDB10 / CDB16 accessors: types_cdb.go:13-55 and 66-96 *)
Definition is_relative_address (c : cdbf) : bool := bit_set (b01 c) 0x01.
Definition set_relative_address (c : cdbf) (v : bool) : cdbf :=
  with_b01 c (if v then N.lor (b01 c) 0x01 else N.land (b01 c) (not8 0x01)).
Definition is_force_unit_access (c : cdbf) : bool := bit_set (b01 c) 0x08.
Definition set_force_unit_access (c : cdbf) (v : bool) : cdbf :=
  with_b01 c (if v then N.lor (b01 c) 0x08 else N.land (b01 c) (not8 0x08)).
Definition is_disable_page_out (c : cdbf) : bool := bit_set (b01 c) 0x10.
Definition set_disable_page_out (c : cdbf) (v : bool) : cdbf :=
  with_b01 c (if v then N.lor (b01 c) 0x10 else N.land (b01 c) (not8 0x10)).
(** types_cdb.go:49-51 (CDB10) and 90-92 (CDB16 GetProtection) *)
Definition get_logical_unit_number (c : cdbf) : N := N.shiftr (b01 c) 5.
(** types_cdb.go:53-55 and 94-96; v << 5 on a byte *)
Definition set_logical_unit_number (c : cdbf) (v : N) : cdbf :=
  with_b01 c (N.lor (N.land (b01 c) 0x1F) (N.shiftl v 5 mod 256)).

(** plat_linux/sg_types.go:45-55 on byte 4 of SECURITY PROTOCOL IN/OUT *)
Definition is_inc512 (b04 : N) : bool := bit_set b04 0x80.
Definition set_inc512 (b04 : N) (v : bool) : N := if v then N.lor b04 0x80 else N.land b04 (not8 0x80).

(** scsi/types.go:26-48 on a copy of 18 sense bytes: B00 is byte 0, B02 is byte 2, ASC and ASCQ bytes 12 and 13 *)
Definition sense_byte (i : nat) (s : bytes) : N := nth i s 0.
Definition get_error_code (s : bytes) : N := N.land (sense_byte 0 s) 0x7F.
Definition is_valid (s : bytes) : bool := bit_set (sense_byte 0 s) 0x80.
Definition get_sense_key (s : bytes) : N := N.land (sense_byte 2 s) 0x0F.
Definition is_incorrect_length (s : bytes) : bool := bit_set (sense_byte 2 s) 0x20.
Definition is_end_of_media (s : bytes) : bool := bit_set (sense_byte 2 s) 0x40.
Definition is_file_mark (s : bytes) : bool := bit_set (sense_byte 2 s) 0x80.

(** plat_linux/types_ata_passthu.go:33-46: ATA_PASSTHROUGH12 packed (all fields are single bytes, in order) *)
Definition pack12 (f : cdbf) (t : tf) : bytes :=
  [0xA1; b01 f; b02 f; g_feat (t_lob t); g_nsect (t_lob t); g_lbal (t_lob t); g_lbam (t_lob t); g_lbah (t_lob t);
   t_dev t; t_command t mod 256; 0; 0].
(** plat_linux/types_ata_passthu.go:116-133: ATA_PASSTHROUGH16 packed *)
Definition pack16 (f : cdbf) (t : tf) : bytes :=
  [0x85; b01 f; b02 f; g_feat (t_hob t); g_feat (t_lob t); g_nsect (t_hob t); g_nsect (t_lob t);
   g_lbal (t_hob t); g_lbal (t_lob t); g_lbam (t_hob t); g_lbam (t_lob t); g_lbah (t_hob t); g_lbah (t_lob t);
   t_dev t; t_command t mod 256; 0].
(** plat_linux/sg_types.go:34-43 packed by struc (12 bytes, multi-byte fields big-endian) *)
Definition pack_security (op protocol sp b04 b05 len b10 control : N) : bytes :=
  [op; protocol] ++ be_bytes 2 sp ++ [b04; b05] ++ be_bytes 4 len ++ [b10; control].
