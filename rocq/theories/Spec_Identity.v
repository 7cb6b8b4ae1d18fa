(** Specification vocabulary for identify data, SMART data and discovery descriptors: where the standards put each field.
    Written from ACS (IDENTIFY DEVICE), SFF-8035 / ATA8-ACS (SMART), NVMe 1.4 (Identify Controller) and the TCG core
    specification; no reference to the model. *)
From Verif Require Import Base.
From Coq Require Import DecimalString.

(** name, byte offset, bytes per element, number of elements *)
Definition place : Type := string * (nat * (nat * nat)).

(** Elements at a place, decoded little- or big-endian. *)
Definition le_elems (off sz c : nat) (b : bytes) : list N := map (fun k => le_val (slice (off + k * sz) sz b)) (seq 0 c).
Definition be_elems (off sz c : nat) (b : bytes) : list N := map (fun k => be_val (slice (off + k * sz) sz b)) (seq 0 c).

(** ---- ATA IDENTIFY DEVICE: places given by word number ---- *)
Definition W (n : string) (w : nat) : place := (n, ((2 * w)%nat, (2, 1)%nat)).
Definition Ws (n : string) (w c : nat) : place := (n, ((2 * w)%nat, (2%nat, c))).
Definition Lo (n : string) (w : nat) : place := (n, ((2 * w)%nat, (1, 1)%nat)).         (* bits 7:0 of the word *)
Definition Hi (n : string) (w : nat) : place := (n, ((2 * w + 1)%nat, (1, 1)%nat)).     (* bits 15:8 *)
Definition DW (n : string) (w : nat) : place := (n, ((2 * w)%nat, (4, 1)%nat)).
Definition DWs (n : string) (w c : nat) : place := (n, ((2 * w)%nat, (4%nat, c))).
Definition QW (n : string) (w : nat) : place := (n, ((2 * w)%nat, (8, 1)%nat)).

Definition ata_places : list place :=
  [ Lo "GeneralConfiguration.A" 0; Hi "GeneralConfiguration.B" 0; W "NumCylinders" 1; W "SpecificConfiguration" 2; W "NumHeads" 3;
    Ws "Retired1" 4 2; W "NumSectorsPerTrack" 6; Ws "VendorUnique1" 7 3; Ws "Retired2" 20 2; W "Obsolete1" 22;
    Lo "MaximumBlockTransfer" 47; Hi "VendorUnique2" 47; W "TrustComputing.A" 48; W "Capabilities.A" 49; W "Capabilities.B" 50;
    Ws "ObsoleteWords51" 51 2; Lo "Word53.A" 53; Hi "Word53.FreeFallControlSensitivity" 53; W "NumberOfCurrentCylinders" 54;
    W "NumberOfCurrentHeads" 55; W "CurrentSectorsPerTrack" 56; DW "CurrentSectorCapacity" 57;
    Lo "Word59.CurrentMultiSectorSetting" 59; Hi "Word59.B" 59; DW "UserAddressableSectors" 60; W "ObsoleteWord62" 62;
    Lo "MultiWordDmaSupport" 63; Hi "MultiWordDmaActive" 63; Lo "AdvancedPioModes" 64; Hi "ReservedByte64" 64;
    W "MinimumMwxferCycleTime" 65; W "RecommendedMwxferCycleTime" 66; W "MinimumPioCycleTime" 67; W "MinimumPioCycleTimeIordy" 68;
    W "AdditionalSupported.A" 69; Ws "ReservedWords70" 70 5; W "Word75.A" 75; W "SerialAtaCapabilities.A" 76;
    W "SerialAtaCapabilities.B" 77; W "SerialAtaFeaturesSupported.A" 78; W "SerialAtaFeaturesEnabled.A" 79; W "MajorRevision" 80;
    W "MinorRevision" 81; W "CommandSetSupport.A" 82; W "CommandSetSupport.B" 83; W "CommandSetSupport.C" 84;
    W "CommandSetActive.A" 85; W "CommandSetActive.B" 86; W "CommandSetActive.C" 87; Lo "UltraDmaSupport" 88; Hi "UltraDmaActive" 88;
    W "NormalSecurityEraseUnit.A" 89; W "EnhancedSecurityEraseUnit.A" 90; Lo "CurrentApmLevel" 91; Hi "ReservedWord91" 91;
    W "MasterPasswordId" 92; W "HardwareResetResult" 93; Lo "CurrentAcousticValue" 94; Hi "RecommendedAcousticValue" 94;
    W "StreamMinRequestSize" 95; W "StreamingTransferTimeDma" 96; W "StreamingAccessLatencyDmaPio" 97;
    DW "StreamingPerfGranularity" 98; QW "Max48bitLba" 100; W "StreamingTransferTime" 104; W "DsmCap" 105;
    W "PhysicalLogicalSectorSize.A" 106; W "InterSeekDelay" 107; Ws "WorldWideName" 108 4; Ws "ReservedForWorldWideName128" 112 4;
    W "ReservedForTlcTechnicalReport" 116; Ws "WordsPerLogicalSector" 117 2; W "CommandSetSupportExt.A" 119;
    W "CommandSetActiveExt.A" 120; Ws "ReservedForExpandedSupportandActive" 121 6; W "Word127.A" 127; W "SecurityStatus.A" 128;
    Ws "ReservedWord129" 129 31; W "CfaPowerMode1.A" 160; Ws "ReservedForCfaWord161" 161 7; W "Word168.A" 168;
    W "DataSetManagementFeature.A" 169; Ws "AdditionalProductID" 170 4; Ws "ReservedForCfaWord174" 174 2;
    Ws "CurrentMediaSerialNumber" 176 30; W "SctCommandTransport.A" 206; Ws "ReservedWord207" 207 2; W "BlockAlignment.A" 209;
    Ws "WriteReadVerifySectorCountMode3Only" 210 2; Ws "WriteReadVerifySectorCountMode2Only" 212 2; W "NvCacheCapabilities.A" 214;
    W "NvCacheSizeLSW" 215; W "NvCacheSizeMSW" 216; W "NominalMediaRotationRate" 217; W "ReservedWord218" 218;
    W "NvCacheOptions.A" 219; Lo "WriteReadVerifySectorCountMode" 220; Hi "ReservedWord220" 220; W "ReservedWord221" 221;
    W "TransportMajorVersion.A" 222; W "TransportMinorVersion" 223; Ws "ReservedWord224" 224 6;
    DWs "ExtendedNumberOfUserAddressableSectors" 230 2; W "MinBlocksPerDownloadMicrocodeMode03" 234;
    W "MaxBlocksPerDownloadMicrocodeMode03" 235; Ws "ReservedWord236" 236 19; Lo "Signature" 255; Hi "CheckSum" 255 ].
(** ATA strings: first character in the high byte of each word *)
Definition ata_texts : list (string * (nat * nat)) :=   (* name, byte offset, length *)
  [ ("SerialNumber"%string, ((2 * 10)%nat, 20%nat)); ("FirmwareRevision"%string, ((2 * 23)%nat, 8%nat)); ("ModelNumber"%string, ((2 * 27)%nat, 40%nat)) ].

(** ---- NVMe Identify Controller: places given by byte offset ---- *)
Definition At (off : nat) (n : string) (sz : nat) : place := (n, (off, (sz, 1%nat))).
Definition Bytes (off : nat) (n : string) (c : nat) : place := (n, (off, (1%nat, c))).
Definition dec (k : nat) : string := NilEmpty.string_of_uint (Nat.to_uint k).
Definition indexed (a : string) (k : nat) (f : string) : string := (a ++ "[" ++ dec k ++ "]." ++ f)%string.

Definition power_state (k : nat) : list place :=
  let b := (2048 + 32 * k)%nat in
  [ At b (indexed "Psd" k "MaxPower") 2; At (b + 2) (indexed "Psd" k "Rsvd2") 1; At (b + 3) (indexed "Psd" k "Flags") 1;
    At (b + 4) (indexed "Psd" k "EntryLat") 4; At (b + 8) (indexed "Psd" k "ExitLat") 4; At (b + 12) (indexed "Psd" k "Readput") 1;
    At (b + 13) (indexed "Psd" k "ReadLat") 1; At (b + 14) (indexed "Psd" k "Writeput") 1; At (b + 15) (indexed "Psd" k "WriteLat") 1;
    At (b + 16) (indexed "Psd" k "IdlePower") 2; At (b + 18) (indexed "Psd" k "IdleScale") 1; At (b + 19) (indexed "Psd" k "Rsvd19") 1;
    At (b + 20) (indexed "Psd" k "ActivePower") 2; At (b + 22) (indexed "Psd" k "ActiveWorkScale") 1;
    Bytes (b + 23) (indexed "Psd" k "Rsvd23") 9 ].

Definition nvme_places : list place :=
  [ At 0 "Vid" 2; At 2 "Ssvid" 2; Bytes 4 "Sn" 20; Bytes 24 "Mn" 40; Bytes 64 "Fr" 8; At 72 "Rab" 1; Bytes 73 "Ieee" 3; At 76 "Cmic" 1;
    At 77 "Mdts" 1; At 78 "Cntlid" 2; At 80 "TertiaryVersion" 1; At 81 "MinorVersion" 1; At 82 "MajorVersion" 2; At 84 "Rtd3r" 4;
    At 88 "Rtd3e" 4; At 92 "Oaes" 4; At 96 "Ctratt" 4; At 100 "Rrls" 2; Bytes 102 "Rsvd102" 9; At 111 "Cntrltype" 1; Bytes 112 "Fguid" 16;
    At 128 "Crdt1" 2; At 130 "Crdt2" 2; At 132 "Crdt3" 2; Bytes 134 "Rsvd134" 122; At 256 "Oacs" 2; At 258 "Acl" 1; At 259 "Aerl" 1;
    At 260 "Frmw" 1; At 261 "Lpa" 1; At 262 "Elpe" 1; At 263 "Npss" 1; At 264 "Avscc" 1; At 265 "Apsta" 1; At 266 "Wctemp" 2;
    At 268 "Cctemp" 2; At 270 "Mtfa" 2; At 272 "Hmpre" 4; At 276 "Hmmin" 4; Bytes 280 "Tnvmcap" 16; Bytes 296 "Unvmcap" 16;
    At 312 "Rpmbs" 4; At 316 "Edstt" 2; At 318 "Dsto" 1; At 319 "Fwug" 1; At 320 "Kas" 2; At 322 "Hctma" 2; At 324 "Mntmt" 2;
    At 326 "Mxtmt" 2; At 328 "Sanicap" 4; At 332 "Hmminds" 4; At 336 "Hmmaxd" 2; At 338 "Nsetidmax" 2; At 340 "Endgidmax" 2;
    At 342 "Anatt" 1; At 343 "Anacap" 1; At 344 "Anagrpmax" 4; At 348 "Nanagrpid" 4; At 352 "Pels" 4; Bytes 356 "Rsvd356" 156;
    At 512 "Sqes" 1; At 513 "Cqes" 1; At 514 "Maxcmd" 2; At 516 "Nn" 4; At 520 "Oncs" 2; At 522 "Fuses" 2; At 524 "Fna" 1; At 525 "Vwc" 1;
    At 526 "Awun" 2; At 528 "Awupf" 2; At 530 "Icsvscc" 1; At 531 "Nwpc" 1; At 532 "Acwu" 2; At 534 "Ocfs" 2; At 536 "Sgls" 4;
    At 540 "Mnan" 4; Bytes 544 "Rsvd544" 224; Bytes 768 "Subnqn" 256; Bytes 1024 "Rsvd1024" 768; At 1792 "Ioccsz" 4; At 1796 "Iorcsz" 4;
    At 1800 "Icdoff" 2; At 1802 "Ctrattr" 1; At 1803 "Msdbd" 1; Bytes 1804 "Rsvd1804" 244; Bytes 3072 "Vs" 1024 ]
  ++ concat (map power_state (seq 0 32)).

(** ---- SMART READ DATA / READ THRESHOLDS ---- *)
Definition smart_attr (k : nat) : list place :=
  let b := (2 + 12 * k)%nat in
  [ At b (indexed "Attributes" k "Id") 1; At (b + 1) (indexed "Attributes" k "Flags") 2; At (b + 3) (indexed "Attributes" k "Current") 1;
    At (b + 4) (indexed "Attributes" k "Worst") 1; Bytes (b + 5) (indexed "Attributes" k "Raw") 6;
    At (b + 11) (indexed "Attributes" k "Reserved01") 1 ].
Definition smart_value_places : list place :=
  [ At 0 "RevNumber" 2; At 362 "OfflineDataCollectionStatus" 1; At 363 "SelfTestExecStatus" 1;
    At 364 "TotalTimeToCompleteOfflineDataCollectionActivity" 2; At 366 "VendorSpecific366" 1; At 367 "OfflineDataCollectionCapability" 1;
    At 368 "SmartCapability" 2; At 370 "ErrorlogCapability" 1; At 371 "VendorSpecific371" 1;
    At 372 "ShortSelftestRoutineRecommandedPollingTime" 1; At 373 "ExtendedSelftestRoutineRecommandedPollingTimeA" 1;
    At 374 "ConveyanceSelftestRoutineRecommandedPollingTime" 1; Bytes 375 "ExtendedSelftestRoutineRecommandedPollingTimeB" 2;
    Bytes 377 "Reserved01" 9; Bytes 386 "VendorSpecific386" 125; At 511 "Checksum" 1 ]
  ++ concat (map smart_attr (seq 0 30)).
Definition smart_threshold (k : nat) : list place :=
  let b := (2 + 12 * k)%nat in
  [ At b (indexed "Attributes" k "Id") 1; At (b + 1) (indexed "Attributes" k "Threshold") 1;
    Bytes (b + 2) (indexed "Attributes" k "Reserved01") 10 ].
Definition smart_threshold_places : list place :=
  [ At 0 "RevNumber" 2; Bytes 362 "Reserved01" 18; Bytes 380 "VendorSpecific380" 131; At 511 "Checksum" 1 ]
  ++ concat (map smart_threshold (seq 0 30)).

(** ---- TCG Level 0 descriptors that fit 16 bytes ---- *)
Definition basic_places : list place := [ At 0 "FeatureCode" 2; At 2 "B02" 1; At 3 "Length" 1 ].
Definition opal_v100_places : list place := basic_places ++ [ At 4 "BaseComID" 2; At 6 "NumComIDs" 2 ].
Definition single_user_places : list place := basic_places ++ [ At 4 "NumberLockingObj" 4; At 8 "B08" 1 ].
Definition data_store_places : list place := basic_places ++ [ At 6 "MaxTables" 2; At 8 "MaxSizeTables" 4; At 12 "TableSizeAlignment" 4 ].
