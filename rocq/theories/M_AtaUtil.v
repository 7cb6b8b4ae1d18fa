(** Model of ata_util/utils.go, the identify accessors of ata/types.go and the feature union of tcg/types.go. *)
From Verif Require Import Base M_Buffer M_Struc M_Layouts M_Ata M_TcgDevice M_DriveHandle.

(** ---- ata/types.go:173-202, 230-232, 240-242, 282-284: accessors of a decoded IdentityDeviceData ---- *)
Definition flag8 (n : string) (mask : N) (id : struct_val) : bool := negb (N.land (field1 n id) mask =? 0).
Definition is_multi_sector_setting_valid := flag8 "Word59.B" 0x01.
Definition is_block_erase_ext_supported := flag8 "Word59.B" 0x80.
Definition is_overwrite_ext_supported := flag8 "Word59.B" 0x40.
Definition is_crypto_scramble_ext_supported := flag8 "Word59.B" 0x20.
Definition is_sanitize_feature_set_supported := flag8 "Word59.B" 0x10.
Definition is_sanitize_operation_standard_compliant := flag8 "Word59.B" 0x08.
Definition is_sanitize_antifreeze_lock_ext_supported := flag8 "Word59.B" 0x04.
Definition smart_commands_supported := flag8 "CommandSetSupport.A" 0x0001.
Definition smart_commands_active := flag8 "CommandSetActive.A" 0x0001.
Definition get_trim := flag8 "DataSetManagementFeature.A" 0x01.

(** ---- ata/types.go:5-65: the opcodes ata_util uses ---- *)
Definition ATA_OP_DSM : N := 0x06.
Definition ATA_OP_READ_PIO_EXT : N := 0x24.
Definition ATA_OP_READ_DMA_EXT : N := 0x25.
Definition ATA_OP_READ_NATIVE_MAX_EXT : N := 0x27.
Definition ATA_OP_WRITE_PIO_EXT : N := 0x34.
Definition ATA_OP_WRITE_DMA_EXT : N := 0x35.
Definition ATA_OP_SET_MAX_EXT : N := 0x37.
Definition ATA_OP_READ_VERIFY_EXT : N := 0x42.
Definition ATA_OP_WRITE_UNC_EXT : N := 0x45.
Definition ATA_OP_READ_FPDMA : N := 0x60.
Definition ATA_OP_WRITE_FPDMA : N := 0x61.
Definition ATA_OP_VENDOR_SPECIFIC_0x80 : N := 0x80.
Definition ATA_OP_SMART : N := 0xb0.
Definition ATA_OP_READ_DMA : N := 0xc8.
Definition ATA_OP_WRITE_DMA : N := 0xca.
Definition ATA_OP_FLUSHCACHE_EXT : N := 0xea.
Definition ATA_OP_SECURITY_ERASE_PREPARE : N := 0xf3.
Definition ATA_OP_SECURITY_ERASE_UNIT : N := 0xf4.
(** ata/types.go:72, 94-95, 103-104 *)
Definition ATA_USING_LBA : N := 0x40.
Definition SMART_FEAT_READ_ATTRIBUTE_VALUES : N := 0xd0.
Definition SMART_FEAT_READ_ATTRIBUTE_THRESHOLDS : N := 0xd1.
Definition SMART_LBA_HIGH : N := 0xc2.
Definition SMART_LBA_LOW : N := 0x4f.

(** ata_util/utils.go:10 *)
Definition lba28_limit : N := N.shiftl 1 28 - 1.

(** ata_util/utils.go:12-55; lba is a uint64, nsect a (64-bit) uint *)
Definition is_needs_lba48 (op lba nsect : N) : bool :=
  if existsb (N.eqb op) [ATA_OP_DSM; ATA_OP_READ_PIO_EXT; ATA_OP_READ_DMA_EXT; ATA_OP_WRITE_PIO_EXT; ATA_OP_WRITE_DMA_EXT;
                         ATA_OP_READ_VERIFY_EXT; ATA_OP_WRITE_UNC_EXT; ATA_OP_READ_NATIVE_MAX_EXT; ATA_OP_SET_MAX_EXT;
                         ATA_OP_FLUSHCACHE_EXT] then true
  else if existsb (N.eqb op) [ATA_OP_SECURITY_ERASE_PREPARE; ATA_OP_SECURITY_ERASE_UNIT; ATA_OP_VENDOR_SPECIFIC_0x80;
                              ATA_OP_SMART] then false
  else if lba28_limit <=? lba then true
  else if 0 <? nsect then
    if 0xff <? nsect then true
    else if lba28_limit <=? (lba + nsect - 1) mod 2 ^ 64 then true
    else false
  else false.

(** ata_util/utils.go:57-75 *)
Definition is_dma (op : N) : bool :=
  existsb (N.eqb op) [ATA_OP_DSM; ATA_OP_READ_DMA_EXT; ATA_OP_READ_FPDMA; ATA_OP_WRITE_DMA_EXT; ATA_OP_WRITE_FPDMA;
                      ATA_OP_READ_DMA; ATA_OP_WRITE_DMA].

(** ata_util/utils.go:77-94: the value of the parameter tf at the end of TfInit *)
Definition tf_init_local (t : tf) (op lba nsect : N) : tf :=
  let lob := {| g_feat := g_feat (t_lob t); g_nsect := nsect mod 256; g_lbal := lba mod 256;
                g_lbam := N.shiftr lba 8 mod 256; g_lbah := N.shiftr lba 16 mod 256 |} in
  if is_needs_lba48 op lba nsect then
    {| t_dev := ATA_USING_LBA; t_command := op; t_error := t_error t; t_status := t_status t; t_lba48 := 1; t_lob := lob;
       t_hob := {| g_feat := g_feat (t_hob t); g_nsect := N.shiftr nsect 8 mod 256; g_lbal := N.shiftr lba 24 mod 256;
                   g_lbam := N.shiftr lba 32 mod 256; g_lbah := N.shiftr lba 40 mod 256 |} |}
  else
    {| t_dev := N.lor ATA_USING_LBA (N.land (N.shiftr lba 24) 0x0f); t_command := op; t_error := t_error t;
       t_status := t_status t; t_lba48 := t_lba48 t; t_lob := lob; t_hob := t_hob t |}.

(** ata_util/utils.go:77: tf is passed by value and nothing is returned, so the caller's task file after the call is the one before *)
Definition tf_init (t : tf) (op lba nsect : N) : tf := let _ := tf_init_local t op lba nsect in t.

(** ata_util/utils.go:96-112: out[:outLen] after the loop; data[i+1] of a last odd byte panics *)
Fixpoint fix_order_loop (data : bytes) : res bytes :=
  match data with
  | [] => Ok []
  | [_] => Panic
  | a :: b :: rest =>
    if b =? 0 then Ok []
    else if a =? 0 then Ok [b]
    else match fix_order_loop rest with Ok r => Ok (b :: a :: r) | e => e end
  end.
(** ata_util/utils.go:114-118 on the reversed text *)
Fixpoint drop_spaces (l : bytes) : bytes :=
  match l with [] => [] | b :: l' => if b =? 0x20 then drop_spaces l' else l end.
(** ata_util/utils.go:96-121 *)
Definition fix_ata_string_order (data : bytes) (trimRight : bool) : res bytes :=
  match fix_order_loop data with
  | Ok out => Ok (if trimRight then rev (drop_spaces (rev out)) else out)
  | e => e
  end.

(** ata_util/utils.go:129-138, 144-154 *)
Definition smart_tf (feat : N) : tf :=
  {| t_dev := 0; t_command := ATA_OP_SMART; t_error := 0; t_status := 0; t_lba48 := 0;
     t_lob := {| g_feat := feat; g_nsect := 1; g_lbal := 0; g_lbam := SMART_LBA_LOW; g_lbah := SMART_LBA_HIGH |};
     t_hob := regs0 |}.

(** ata_util/utils.go:123-160; [p] is the drive handle (common/drive_handle.go) *)
Definition read_smart (V : drv) (p : dh) (h : dhist) (timeoutSecs : N) : dhist * res (struct_val * struct_val) :=
  let buffer := zeros 512 in
  let '(h1, (e1, (_, buffer1))) :=
    ata_do_task_file_cmd V p h false false (smart_tf SMART_FEAT_READ_ATTRIBUTE_VALUES) buffer timeoutSecs in
  match e1 with
  | Some e => (h1, Err e)
  | None =>
    match struc_unpack struc_default lay_SmartAttributeValues buffer1 with
    | Ok values =>
      let '(h2, (e2, (_, buffer2))) :=
        ata_do_task_file_cmd V p h1 false false (smart_tf SMART_FEAT_READ_ATTRIBUTE_THRESHOLDS) buffer1 timeoutSecs in
      match e2 with
      | Some e => (h2, Err e)
      | None =>
        match struc_unpack struc_default lay_SmartAttributeThresholds buffer2 with
        | Ok thresholds => (h2, Ok (values, thresholds))
        | Err e => (h2, Err e) | Panic => (h2, Panic) | Fuel => (h2, Fuel)
        end
      end
    | Err e => (h1, Err e) | Panic => (h1, Panic) | Fuel => (h1, Fuel)
    end
  end.

(** ---- tcg/types.go:189-263: Discovery0FeatureUnion, a 16-byte array ---- *)
Definition union_to (lay : list fld) (buffer : bytes) : res struct_val := struc_unpack struc_default lay buffer.
Definition to_basic := union_to lay_Discovery0BasicFeature.                  (* 193-199 *)
Definition to_tper := union_to lay_Discovery0TPerFeature.                    (* 201-207 *)
Definition to_locking := union_to lay_Discovery0LockingFeature.              (* 209-215 *)
Definition to_geometry := union_to lay_Discovery0GeometryReportingFeature.   (* 217-223 *)
Definition to_opal_v100 := union_to lay_Discovery0OpalSSCFeatureV100.        (* 225-231 *)
Definition to_opal_v200 := union_to lay_Discovery0OpalSSCFeatureV200.        (* 233-239 *)
Definition to_enterprise := union_to lay_Discovery0EnterpriseSSCFeature.     (* 241-247 *)
Definition to_single_user := union_to lay_Discovery0SingleUserModeFeature.   (* 249-255 *)
Definition to_data_store := union_to lay_Discovery0DataStoreTableFeature.    (* 257-263 *)

(** tcg/types.go:31-33 and 35-37 on the byte B02 *)
Definition get_version (b02 : N) : N := N.land (N.shiftr b02 4) 0x0f.
Definition set_version (b02 version : N) : N := N.lor (N.land b02 0x0f) (N.shiftl (N.land version 0x0F) 4 mod 256).
