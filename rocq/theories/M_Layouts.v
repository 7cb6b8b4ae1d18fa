(** GENERATED by tools/mklayout.py from the struct definitions of /repo (read as text): field name, bytes per element,
    number of elements, in declaration order; nested and embedded structs flattened.  Elements are named by the Go path. *)
From Verif Require Import Base M_Struc.

(** ata/types.go:302-463 *)
Definition lay_IdentityDeviceData : list fld :=
  [F "GeneralConfiguration.A" 1 1;
   F "GeneralConfiguration.B" 1 1;
   F "NumCylinders" 2 1;
   F "SpecificConfiguration" 2 1;
   F "NumHeads" 2 1;
   F "Retired1" 2 2;
   F "NumSectorsPerTrack" 2 1;
   F "VendorUnique1" 2 3;
   F "SerialNumber" 1 20;
   F "Retired2" 2 2;
   F "Obsolete1" 2 1;
   F "FirmwareRevision" 1 8;
   F "ModelNumber" 1 40;
   F "MaximumBlockTransfer" 1 1;
   F "VendorUnique2" 1 1;
   F "TrustComputing.A" 2 1;
   F "Capabilities.A" 2 1;
   F "Capabilities.B" 2 1;
   F "ObsoleteWords51" 2 2;
   F "Word53.A" 1 1;
   F "Word53.FreeFallControlSensitivity" 1 1;
   F "NumberOfCurrentCylinders" 2 1;
   F "NumberOfCurrentHeads" 2 1;
   F "CurrentSectorsPerTrack" 2 1;
   F "CurrentSectorCapacity" 4 1;
   F "Word59.CurrentMultiSectorSetting" 1 1;
   F "Word59.B" 1 1;
   F "UserAddressableSectors" 4 1;
   F "ObsoleteWord62" 2 1;
   F "MultiWordDmaSupport" 1 1;
   F "MultiWordDmaActive" 1 1;
   F "AdvancedPioModes" 1 1;
   F "ReservedByte64" 1 1;
   F "MinimumMwxferCycleTime" 2 1;
   F "RecommendedMwxferCycleTime" 2 1;
   F "MinimumPioCycleTime" 2 1;
   F "MinimumPioCycleTimeIordy" 2 1;
   F "AdditionalSupported.A" 2 1;
   F "ReservedWords70" 2 5;
   F "Word75.A" 2 1;
   F "SerialAtaCapabilities.A" 2 1;
   F "SerialAtaCapabilities.B" 2 1;
   F "SerialAtaFeaturesSupported.A" 2 1;
   F "SerialAtaFeaturesEnabled.A" 2 1;
   F "MajorRevision" 2 1;
   F "MinorRevision" 2 1;
   F "CommandSetSupport.A" 2 1;
   F "CommandSetSupport.B" 2 1;
   F "CommandSetSupport.C" 2 1;
   F "CommandSetActive.A" 2 1;
   F "CommandSetActive.B" 2 1;
   F "CommandSetActive.C" 2 1;
   F "UltraDmaSupport" 1 1;
   F "UltraDmaActive" 1 1;
   F "NormalSecurityEraseUnit.A" 2 1;
   F "EnhancedSecurityEraseUnit.A" 2 1;
   F "CurrentApmLevel" 1 1;
   F "ReservedWord91" 1 1;
   F "MasterPasswordId" 2 1;
   F "HardwareResetResult" 2 1;
   F "CurrentAcousticValue" 1 1;
   F "RecommendedAcousticValue" 1 1;
   F "StreamMinRequestSize" 2 1;
   F "StreamingTransferTimeDma" 2 1;
   F "StreamingAccessLatencyDmaPio" 2 1;
   F "StreamingPerfGranularity" 4 1;
   F "Max48bitLba" 8 1;
   F "StreamingTransferTime" 2 1;
   F "DsmCap" 2 1;
   F "PhysicalLogicalSectorSize.A" 2 1;
   F "InterSeekDelay" 2 1;
   F "WorldWideName" 2 4;
   F "ReservedForWorldWideName128" 2 4;
   F "ReservedForTlcTechnicalReport" 2 1;
   F "WordsPerLogicalSector" 2 2;
   F "CommandSetSupportExt.A" 2 1;
   F "CommandSetActiveExt.A" 2 1;
   F "ReservedForExpandedSupportandActive" 2 6;
   F "Word127.A" 2 1;
   F "SecurityStatus.A" 2 1;
   F "ReservedWord129" 2 31;
   F "CfaPowerMode1.A" 2 1;
   F "ReservedForCfaWord161" 2 7;
   F "Word168.A" 2 1;
   F "DataSetManagementFeature.A" 2 1;
   F "AdditionalProductID" 2 4;
   F "ReservedForCfaWord174" 2 2;
   F "CurrentMediaSerialNumber" 2 30;
   F "SctCommandTransport.A" 2 1;
   F "ReservedWord207" 2 2;
   F "BlockAlignment.A" 2 1;
   F "WriteReadVerifySectorCountMode3Only" 2 2;
   F "WriteReadVerifySectorCountMode2Only" 2 2;
   F "NvCacheCapabilities.A" 2 1;
   F "NvCacheSizeLSW" 2 1;
   F "NvCacheSizeMSW" 2 1;
   F "NominalMediaRotationRate" 2 1;
   F "ReservedWord218" 2 1;
   F "NvCacheOptions.A" 2 1;
   F "WriteReadVerifySectorCountMode" 1 1;
   F "ReservedWord220" 1 1;
   F "ReservedWord221" 2 1;
   F "TransportMajorVersion.A" 2 1;
   F "TransportMinorVersion" 2 1;
   F "ReservedWord224" 2 6;
   F "ExtendedNumberOfUserAddressableSectors" 4 2;
   F "MinBlocksPerDownloadMicrocodeMode03" 2 1;
   F "MaxBlocksPerDownloadMicrocodeMode03" 2 1;
   F "ReservedWord236" 2 19;
   F "Signature" 1 1;
   F "CheckSum" 1 1].

(** ata/types.go:498-527 *)
Definition lay_SmartAttributeValues : list fld :=
  [F "RevNumber" 2 1;
   F "Attributes[0].Id" 1 1;
   F "Attributes[0].Flags" 2 1;
   F "Attributes[0].Current" 1 1;
   F "Attributes[0].Worst" 1 1;
   F "Attributes[0].Raw" 1 6;
   F "Attributes[0].Reserved01" 1 1;
   F "Attributes[1].Id" 1 1;
   F "Attributes[1].Flags" 2 1;
   F "Attributes[1].Current" 1 1;
   F "Attributes[1].Worst" 1 1;
   F "Attributes[1].Raw" 1 6;
   F "Attributes[1].Reserved01" 1 1;
   F "Attributes[2].Id" 1 1;
   F "Attributes[2].Flags" 2 1;
   F "Attributes[2].Current" 1 1;
   F "Attributes[2].Worst" 1 1;
   F "Attributes[2].Raw" 1 6;
   F "Attributes[2].Reserved01" 1 1;
   F "Attributes[3].Id" 1 1;
   F "Attributes[3].Flags" 2 1;
   F "Attributes[3].Current" 1 1;
   F "Attributes[3].Worst" 1 1;
   F "Attributes[3].Raw" 1 6;
   F "Attributes[3].Reserved01" 1 1;
   F "Attributes[4].Id" 1 1;
   F "Attributes[4].Flags" 2 1;
   F "Attributes[4].Current" 1 1;
   F "Attributes[4].Worst" 1 1;
   F "Attributes[4].Raw" 1 6;
   F "Attributes[4].Reserved01" 1 1;
   F "Attributes[5].Id" 1 1;
   F "Attributes[5].Flags" 2 1;
   F "Attributes[5].Current" 1 1;
   F "Attributes[5].Worst" 1 1;
   F "Attributes[5].Raw" 1 6;
   F "Attributes[5].Reserved01" 1 1;
   F "Attributes[6].Id" 1 1;
   F "Attributes[6].Flags" 2 1;
   F "Attributes[6].Current" 1 1;
   F "Attributes[6].Worst" 1 1;
   F "Attributes[6].Raw" 1 6;
   F "Attributes[6].Reserved01" 1 1;
   F "Attributes[7].Id" 1 1;
   F "Attributes[7].Flags" 2 1;
   F "Attributes[7].Current" 1 1;
   F "Attributes[7].Worst" 1 1;
   F "Attributes[7].Raw" 1 6;
   F "Attributes[7].Reserved01" 1 1;
   F "Attributes[8].Id" 1 1;
   F "Attributes[8].Flags" 2 1;
   F "Attributes[8].Current" 1 1;
   F "Attributes[8].Worst" 1 1;
   F "Attributes[8].Raw" 1 6;
   F "Attributes[8].Reserved01" 1 1;
   F "Attributes[9].Id" 1 1;
   F "Attributes[9].Flags" 2 1;
   F "Attributes[9].Current" 1 1;
   F "Attributes[9].Worst" 1 1;
   F "Attributes[9].Raw" 1 6;
   F "Attributes[9].Reserved01" 1 1;
   F "Attributes[10].Id" 1 1;
   F "Attributes[10].Flags" 2 1;
   F "Attributes[10].Current" 1 1;
   F "Attributes[10].Worst" 1 1;
   F "Attributes[10].Raw" 1 6;
   F "Attributes[10].Reserved01" 1 1;
   F "Attributes[11].Id" 1 1;
   F "Attributes[11].Flags" 2 1;
   F "Attributes[11].Current" 1 1;
   F "Attributes[11].Worst" 1 1;
   F "Attributes[11].Raw" 1 6;
   F "Attributes[11].Reserved01" 1 1;
   F "Attributes[12].Id" 1 1;
   F "Attributes[12].Flags" 2 1;
   F "Attributes[12].Current" 1 1;
   F "Attributes[12].Worst" 1 1;
   F "Attributes[12].Raw" 1 6;
   F "Attributes[12].Reserved01" 1 1;
   F "Attributes[13].Id" 1 1;
   F "Attributes[13].Flags" 2 1;
   F "Attributes[13].Current" 1 1;
   F "Attributes[13].Worst" 1 1;
   F "Attributes[13].Raw" 1 6;
   F "Attributes[13].Reserved01" 1 1;
   F "Attributes[14].Id" 1 1;
   F "Attributes[14].Flags" 2 1;
   F "Attributes[14].Current" 1 1;
   F "Attributes[14].Worst" 1 1;
   F "Attributes[14].Raw" 1 6;
   F "Attributes[14].Reserved01" 1 1;
   F "Attributes[15].Id" 1 1;
   F "Attributes[15].Flags" 2 1;
   F "Attributes[15].Current" 1 1;
   F "Attributes[15].Worst" 1 1;
   F "Attributes[15].Raw" 1 6;
   F "Attributes[15].Reserved01" 1 1;
   F "Attributes[16].Id" 1 1;
   F "Attributes[16].Flags" 2 1;
   F "Attributes[16].Current" 1 1;
   F "Attributes[16].Worst" 1 1;
   F "Attributes[16].Raw" 1 6;
   F "Attributes[16].Reserved01" 1 1;
   F "Attributes[17].Id" 1 1;
   F "Attributes[17].Flags" 2 1;
   F "Attributes[17].Current" 1 1;
   F "Attributes[17].Worst" 1 1;
   F "Attributes[17].Raw" 1 6;
   F "Attributes[17].Reserved01" 1 1;
   F "Attributes[18].Id" 1 1;
   F "Attributes[18].Flags" 2 1;
   F "Attributes[18].Current" 1 1;
   F "Attributes[18].Worst" 1 1;
   F "Attributes[18].Raw" 1 6;
   F "Attributes[18].Reserved01" 1 1;
   F "Attributes[19].Id" 1 1;
   F "Attributes[19].Flags" 2 1;
   F "Attributes[19].Current" 1 1;
   F "Attributes[19].Worst" 1 1;
   F "Attributes[19].Raw" 1 6;
   F "Attributes[19].Reserved01" 1 1;
   F "Attributes[20].Id" 1 1;
   F "Attributes[20].Flags" 2 1;
   F "Attributes[20].Current" 1 1;
   F "Attributes[20].Worst" 1 1;
   F "Attributes[20].Raw" 1 6;
   F "Attributes[20].Reserved01" 1 1;
   F "Attributes[21].Id" 1 1;
   F "Attributes[21].Flags" 2 1;
   F "Attributes[21].Current" 1 1;
   F "Attributes[21].Worst" 1 1;
   F "Attributes[21].Raw" 1 6;
   F "Attributes[21].Reserved01" 1 1;
   F "Attributes[22].Id" 1 1;
   F "Attributes[22].Flags" 2 1;
   F "Attributes[22].Current" 1 1;
   F "Attributes[22].Worst" 1 1;
   F "Attributes[22].Raw" 1 6;
   F "Attributes[22].Reserved01" 1 1;
   F "Attributes[23].Id" 1 1;
   F "Attributes[23].Flags" 2 1;
   F "Attributes[23].Current" 1 1;
   F "Attributes[23].Worst" 1 1;
   F "Attributes[23].Raw" 1 6;
   F "Attributes[23].Reserved01" 1 1;
   F "Attributes[24].Id" 1 1;
   F "Attributes[24].Flags" 2 1;
   F "Attributes[24].Current" 1 1;
   F "Attributes[24].Worst" 1 1;
   F "Attributes[24].Raw" 1 6;
   F "Attributes[24].Reserved01" 1 1;
   F "Attributes[25].Id" 1 1;
   F "Attributes[25].Flags" 2 1;
   F "Attributes[25].Current" 1 1;
   F "Attributes[25].Worst" 1 1;
   F "Attributes[25].Raw" 1 6;
   F "Attributes[25].Reserved01" 1 1;
   F "Attributes[26].Id" 1 1;
   F "Attributes[26].Flags" 2 1;
   F "Attributes[26].Current" 1 1;
   F "Attributes[26].Worst" 1 1;
   F "Attributes[26].Raw" 1 6;
   F "Attributes[26].Reserved01" 1 1;
   F "Attributes[27].Id" 1 1;
   F "Attributes[27].Flags" 2 1;
   F "Attributes[27].Current" 1 1;
   F "Attributes[27].Worst" 1 1;
   F "Attributes[27].Raw" 1 6;
   F "Attributes[27].Reserved01" 1 1;
   F "Attributes[28].Id" 1 1;
   F "Attributes[28].Flags" 2 1;
   F "Attributes[28].Current" 1 1;
   F "Attributes[28].Worst" 1 1;
   F "Attributes[28].Raw" 1 6;
   F "Attributes[28].Reserved01" 1 1;
   F "Attributes[29].Id" 1 1;
   F "Attributes[29].Flags" 2 1;
   F "Attributes[29].Current" 1 1;
   F "Attributes[29].Worst" 1 1;
   F "Attributes[29].Raw" 1 6;
   F "Attributes[29].Reserved01" 1 1;
   F "OfflineDataCollectionStatus" 1 1;
   F "SelfTestExecStatus" 1 1;
   F "TotalTimeToCompleteOfflineDataCollectionActivity" 2 1;
   F "VendorSpecific366" 1 1;
   F "OfflineDataCollectionCapability" 1 1;
   F "SmartCapability" 2 1;
   F "ErrorlogCapability" 1 1;
   F "VendorSpecific371" 1 1;
   F "ShortSelftestRoutineRecommandedPollingTime" 1 1;
   F "ExtendedSelftestRoutineRecommandedPollingTimeA" 1 1;
   F "ConveyanceSelftestRoutineRecommandedPollingTime" 1 1;
   F "ExtendedSelftestRoutineRecommandedPollingTimeB" 1 2;
   F "Reserved01" 1 9;
   F "VendorSpecific386" 1 125;
   F "Checksum" 1 1].

(** ata/types.go:535-541 *)
Definition lay_SmartAttributeThresholds : list fld :=
  [F "RevNumber" 2 1;
   F "Attributes[0].Id" 1 1;
   F "Attributes[0].Threshold" 1 1;
   F "Attributes[0].Reserved01" 1 10;
   F "Attributes[1].Id" 1 1;
   F "Attributes[1].Threshold" 1 1;
   F "Attributes[1].Reserved01" 1 10;
   F "Attributes[2].Id" 1 1;
   F "Attributes[2].Threshold" 1 1;
   F "Attributes[2].Reserved01" 1 10;
   F "Attributes[3].Id" 1 1;
   F "Attributes[3].Threshold" 1 1;
   F "Attributes[3].Reserved01" 1 10;
   F "Attributes[4].Id" 1 1;
   F "Attributes[4].Threshold" 1 1;
   F "Attributes[4].Reserved01" 1 10;
   F "Attributes[5].Id" 1 1;
   F "Attributes[5].Threshold" 1 1;
   F "Attributes[5].Reserved01" 1 10;
   F "Attributes[6].Id" 1 1;
   F "Attributes[6].Threshold" 1 1;
   F "Attributes[6].Reserved01" 1 10;
   F "Attributes[7].Id" 1 1;
   F "Attributes[7].Threshold" 1 1;
   F "Attributes[7].Reserved01" 1 10;
   F "Attributes[8].Id" 1 1;
   F "Attributes[8].Threshold" 1 1;
   F "Attributes[8].Reserved01" 1 10;
   F "Attributes[9].Id" 1 1;
   F "Attributes[9].Threshold" 1 1;
   F "Attributes[9].Reserved01" 1 10;
   F "Attributes[10].Id" 1 1;
   F "Attributes[10].Threshold" 1 1;
   F "Attributes[10].Reserved01" 1 10;
   F "Attributes[11].Id" 1 1;
   F "Attributes[11].Threshold" 1 1;
   F "Attributes[11].Reserved01" 1 10;
   F "Attributes[12].Id" 1 1;
   F "Attributes[12].Threshold" 1 1;
   F "Attributes[12].Reserved01" 1 10;
   F "Attributes[13].Id" 1 1;
   F "Attributes[13].Threshold" 1 1;
   F "Attributes[13].Reserved01" 1 10;
   F "Attributes[14].Id" 1 1;
   F "Attributes[14].Threshold" 1 1;
   F "Attributes[14].Reserved01" 1 10;
   F "Attributes[15].Id" 1 1;
   F "Attributes[15].Threshold" 1 1;
   F "Attributes[15].Reserved01" 1 10;
   F "Attributes[16].Id" 1 1;
   F "Attributes[16].Threshold" 1 1;
   F "Attributes[16].Reserved01" 1 10;
   F "Attributes[17].Id" 1 1;
   F "Attributes[17].Threshold" 1 1;
   F "Attributes[17].Reserved01" 1 10;
   F "Attributes[18].Id" 1 1;
   F "Attributes[18].Threshold" 1 1;
   F "Attributes[18].Reserved01" 1 10;
   F "Attributes[19].Id" 1 1;
   F "Attributes[19].Threshold" 1 1;
   F "Attributes[19].Reserved01" 1 10;
   F "Attributes[20].Id" 1 1;
   F "Attributes[20].Threshold" 1 1;
   F "Attributes[20].Reserved01" 1 10;
   F "Attributes[21].Id" 1 1;
   F "Attributes[21].Threshold" 1 1;
   F "Attributes[21].Reserved01" 1 10;
   F "Attributes[22].Id" 1 1;
   F "Attributes[22].Threshold" 1 1;
   F "Attributes[22].Reserved01" 1 10;
   F "Attributes[23].Id" 1 1;
   F "Attributes[23].Threshold" 1 1;
   F "Attributes[23].Reserved01" 1 10;
   F "Attributes[24].Id" 1 1;
   F "Attributes[24].Threshold" 1 1;
   F "Attributes[24].Reserved01" 1 10;
   F "Attributes[25].Id" 1 1;
   F "Attributes[25].Threshold" 1 1;
   F "Attributes[25].Reserved01" 1 10;
   F "Attributes[26].Id" 1 1;
   F "Attributes[26].Threshold" 1 1;
   F "Attributes[26].Reserved01" 1 10;
   F "Attributes[27].Id" 1 1;
   F "Attributes[27].Threshold" 1 1;
   F "Attributes[27].Reserved01" 1 10;
   F "Attributes[28].Id" 1 1;
   F "Attributes[28].Threshold" 1 1;
   F "Attributes[28].Reserved01" 1 10;
   F "Attributes[29].Id" 1 1;
   F "Attributes[29].Threshold" 1 1;
   F "Attributes[29].Reserved01" 1 10;
   F "Reserved01" 1 18;
   F "VendorSpecific380" 1 131;
   F "Checksum" 1 1].

(** nvme/types.go:325-411 *)
Definition lay_IdentifyController : list fld :=
  [F "Vid" 2 1;
   F "Ssvid" 2 1;
   F "Sn" 1 20;
   F "Mn" 1 40;
   F "Fr" 1 8;
   F "Rab" 1 1;
   F "Ieee" 1 3;
   F "Cmic" 1 1;
   F "Mdts" 1 1;
   F "Cntlid" 2 1;
   F "TertiaryVersion" 1 1;
   F "MinorVersion" 1 1;
   F "MajorVersion" 2 1;
   F "Rtd3r" 4 1;
   F "Rtd3e" 4 1;
   F "Oaes" 4 1;
   F "Ctratt" 4 1;
   F "Rrls" 2 1;
   F "Rsvd102" 1 9;
   F "Cntrltype" 1 1;
   F "Fguid" 1 16;
   F "Crdt1" 2 1;
   F "Crdt2" 2 1;
   F "Crdt3" 2 1;
   F "Rsvd134" 1 122;
   F "Oacs" 2 1;
   F "Acl" 1 1;
   F "Aerl" 1 1;
   F "Frmw" 1 1;
   F "Lpa" 1 1;
   F "Elpe" 1 1;
   F "Npss" 1 1;
   F "Avscc" 1 1;
   F "Apsta" 1 1;
   F "Wctemp" 2 1;
   F "Cctemp" 2 1;
   F "Mtfa" 2 1;
   F "Hmpre" 4 1;
   F "Hmmin" 4 1;
   F "Tnvmcap" 1 16;
   F "Unvmcap" 1 16;
   F "Rpmbs" 4 1;
   F "Edstt" 2 1;
   F "Dsto" 1 1;
   F "Fwug" 1 1;
   F "Kas" 2 1;
   F "Hctma" 2 1;
   F "Mntmt" 2 1;
   F "Mxtmt" 2 1;
   F "Sanicap" 4 1;
   F "Hmminds" 4 1;
   F "Hmmaxd" 2 1;
   F "Nsetidmax" 2 1;
   F "Endgidmax" 2 1;
   F "Anatt" 1 1;
   F "Anacap" 1 1;
   F "Anagrpmax" 4 1;
   F "Nanagrpid" 4 1;
   F "Pels" 4 1;
   F "Rsvd356" 1 156;
   F "Sqes" 1 1;
   F "Cqes" 1 1;
   F "Maxcmd" 2 1;
   F "Nn" 4 1;
   F "Oncs" 2 1;
   F "Fuses" 2 1;
   F "Fna" 1 1;
   F "Vwc" 1 1;
   F "Awun" 2 1;
   F "Awupf" 2 1;
   F "Icsvscc" 1 1;
   F "Nwpc" 1 1;
   F "Acwu" 2 1;
   F "Ocfs" 2 1;
   F "Sgls" 4 1;
   F "Mnan" 4 1;
   F "Rsvd544" 1 224;
   F "Subnqn" 1 256;
   F "Rsvd1024" 1 768;
   F "Ioccsz" 4 1;
   F "Iorcsz" 4 1;
   F "Icdoff" 2 1;
   F "Ctrattr" 1 1;
   F "Msdbd" 1 1;
   F "Rsvd1804" 1 244;
   F "Psd[0].MaxPower" 2 1;
   F "Psd[0].Rsvd2" 1 1;
   F "Psd[0].Flags" 1 1;
   F "Psd[0].EntryLat" 4 1;
   F "Psd[0].ExitLat" 4 1;
   F "Psd[0].Readput" 1 1;
   F "Psd[0].ReadLat" 1 1;
   F "Psd[0].Writeput" 1 1;
   F "Psd[0].WriteLat" 1 1;
   F "Psd[0].IdlePower" 2 1;
   F "Psd[0].IdleScale" 1 1;
   F "Psd[0].Rsvd19" 1 1;
   F "Psd[0].ActivePower" 2 1;
   F "Psd[0].ActiveWorkScale" 1 1;
   F "Psd[0].Rsvd23" 1 9;
   F "Psd[1].MaxPower" 2 1;
   F "Psd[1].Rsvd2" 1 1;
   F "Psd[1].Flags" 1 1;
   F "Psd[1].EntryLat" 4 1;
   F "Psd[1].ExitLat" 4 1;
   F "Psd[1].Readput" 1 1;
   F "Psd[1].ReadLat" 1 1;
   F "Psd[1].Writeput" 1 1;
   F "Psd[1].WriteLat" 1 1;
   F "Psd[1].IdlePower" 2 1;
   F "Psd[1].IdleScale" 1 1;
   F "Psd[1].Rsvd19" 1 1;
   F "Psd[1].ActivePower" 2 1;
   F "Psd[1].ActiveWorkScale" 1 1;
   F "Psd[1].Rsvd23" 1 9;
   F "Psd[2].MaxPower" 2 1;
   F "Psd[2].Rsvd2" 1 1;
   F "Psd[2].Flags" 1 1;
   F "Psd[2].EntryLat" 4 1;
   F "Psd[2].ExitLat" 4 1;
   F "Psd[2].Readput" 1 1;
   F "Psd[2].ReadLat" 1 1;
   F "Psd[2].Writeput" 1 1;
   F "Psd[2].WriteLat" 1 1;
   F "Psd[2].IdlePower" 2 1;
   F "Psd[2].IdleScale" 1 1;
   F "Psd[2].Rsvd19" 1 1;
   F "Psd[2].ActivePower" 2 1;
   F "Psd[2].ActiveWorkScale" 1 1;
   F "Psd[2].Rsvd23" 1 9;
   F "Psd[3].MaxPower" 2 1;
   F "Psd[3].Rsvd2" 1 1;
   F "Psd[3].Flags" 1 1;
   F "Psd[3].EntryLat" 4 1;
   F "Psd[3].ExitLat" 4 1;
   F "Psd[3].Readput" 1 1;
   F "Psd[3].ReadLat" 1 1;
   F "Psd[3].Writeput" 1 1;
   F "Psd[3].WriteLat" 1 1;
   F "Psd[3].IdlePower" 2 1;
   F "Psd[3].IdleScale" 1 1;
   F "Psd[3].Rsvd19" 1 1;
   F "Psd[3].ActivePower" 2 1;
   F "Psd[3].ActiveWorkScale" 1 1;
   F "Psd[3].Rsvd23" 1 9;
   F "Psd[4].MaxPower" 2 1;
   F "Psd[4].Rsvd2" 1 1;
   F "Psd[4].Flags" 1 1;
   F "Psd[4].EntryLat" 4 1;
   F "Psd[4].ExitLat" 4 1;
   F "Psd[4].Readput" 1 1;
   F "Psd[4].ReadLat" 1 1;
   F "Psd[4].Writeput" 1 1;
   F "Psd[4].WriteLat" 1 1;
   F "Psd[4].IdlePower" 2 1;
   F "Psd[4].IdleScale" 1 1;
   F "Psd[4].Rsvd19" 1 1;
   F "Psd[4].ActivePower" 2 1;
   F "Psd[4].ActiveWorkScale" 1 1;
   F "Psd[4].Rsvd23" 1 9;
   F "Psd[5].MaxPower" 2 1;
   F "Psd[5].Rsvd2" 1 1;
   F "Psd[5].Flags" 1 1;
   F "Psd[5].EntryLat" 4 1;
   F "Psd[5].ExitLat" 4 1;
   F "Psd[5].Readput" 1 1;
   F "Psd[5].ReadLat" 1 1;
   F "Psd[5].Writeput" 1 1;
   F "Psd[5].WriteLat" 1 1;
   F "Psd[5].IdlePower" 2 1;
   F "Psd[5].IdleScale" 1 1;
   F "Psd[5].Rsvd19" 1 1;
   F "Psd[5].ActivePower" 2 1;
   F "Psd[5].ActiveWorkScale" 1 1;
   F "Psd[5].Rsvd23" 1 9;
   F "Psd[6].MaxPower" 2 1;
   F "Psd[6].Rsvd2" 1 1;
   F "Psd[6].Flags" 1 1;
   F "Psd[6].EntryLat" 4 1;
   F "Psd[6].ExitLat" 4 1;
   F "Psd[6].Readput" 1 1;
   F "Psd[6].ReadLat" 1 1;
   F "Psd[6].Writeput" 1 1;
   F "Psd[6].WriteLat" 1 1;
   F "Psd[6].IdlePower" 2 1;
   F "Psd[6].IdleScale" 1 1;
   F "Psd[6].Rsvd19" 1 1;
   F "Psd[6].ActivePower" 2 1;
   F "Psd[6].ActiveWorkScale" 1 1;
   F "Psd[6].Rsvd23" 1 9;
   F "Psd[7].MaxPower" 2 1;
   F "Psd[7].Rsvd2" 1 1;
   F "Psd[7].Flags" 1 1;
   F "Psd[7].EntryLat" 4 1;
   F "Psd[7].ExitLat" 4 1;
   F "Psd[7].Readput" 1 1;
   F "Psd[7].ReadLat" 1 1;
   F "Psd[7].Writeput" 1 1;
   F "Psd[7].WriteLat" 1 1;
   F "Psd[7].IdlePower" 2 1;
   F "Psd[7].IdleScale" 1 1;
   F "Psd[7].Rsvd19" 1 1;
   F "Psd[7].ActivePower" 2 1;
   F "Psd[7].ActiveWorkScale" 1 1;
   F "Psd[7].Rsvd23" 1 9;
   F "Psd[8].MaxPower" 2 1;
   F "Psd[8].Rsvd2" 1 1;
   F "Psd[8].Flags" 1 1;
   F "Psd[8].EntryLat" 4 1;
   F "Psd[8].ExitLat" 4 1;
   F "Psd[8].Readput" 1 1;
   F "Psd[8].ReadLat" 1 1;
   F "Psd[8].Writeput" 1 1;
   F "Psd[8].WriteLat" 1 1;
   F "Psd[8].IdlePower" 2 1;
   F "Psd[8].IdleScale" 1 1;
   F "Psd[8].Rsvd19" 1 1;
   F "Psd[8].ActivePower" 2 1;
   F "Psd[8].ActiveWorkScale" 1 1;
   F "Psd[8].Rsvd23" 1 9;
   F "Psd[9].MaxPower" 2 1;
   F "Psd[9].Rsvd2" 1 1;
   F "Psd[9].Flags" 1 1;
   F "Psd[9].EntryLat" 4 1;
   F "Psd[9].ExitLat" 4 1;
   F "Psd[9].Readput" 1 1;
   F "Psd[9].ReadLat" 1 1;
   F "Psd[9].Writeput" 1 1;
   F "Psd[9].WriteLat" 1 1;
   F "Psd[9].IdlePower" 2 1;
   F "Psd[9].IdleScale" 1 1;
   F "Psd[9].Rsvd19" 1 1;
   F "Psd[9].ActivePower" 2 1;
   F "Psd[9].ActiveWorkScale" 1 1;
   F "Psd[9].Rsvd23" 1 9;
   F "Psd[10].MaxPower" 2 1;
   F "Psd[10].Rsvd2" 1 1;
   F "Psd[10].Flags" 1 1;
   F "Psd[10].EntryLat" 4 1;
   F "Psd[10].ExitLat" 4 1;
   F "Psd[10].Readput" 1 1;
   F "Psd[10].ReadLat" 1 1;
   F "Psd[10].Writeput" 1 1;
   F "Psd[10].WriteLat" 1 1;
   F "Psd[10].IdlePower" 2 1;
   F "Psd[10].IdleScale" 1 1;
   F "Psd[10].Rsvd19" 1 1;
   F "Psd[10].ActivePower" 2 1;
   F "Psd[10].ActiveWorkScale" 1 1;
   F "Psd[10].Rsvd23" 1 9;
   F "Psd[11].MaxPower" 2 1;
   F "Psd[11].Rsvd2" 1 1;
   F "Psd[11].Flags" 1 1;
   F "Psd[11].EntryLat" 4 1;
   F "Psd[11].ExitLat" 4 1;
   F "Psd[11].Readput" 1 1;
   F "Psd[11].ReadLat" 1 1;
   F "Psd[11].Writeput" 1 1;
   F "Psd[11].WriteLat" 1 1;
   F "Psd[11].IdlePower" 2 1;
   F "Psd[11].IdleScale" 1 1;
   F "Psd[11].Rsvd19" 1 1;
   F "Psd[11].ActivePower" 2 1;
   F "Psd[11].ActiveWorkScale" 1 1;
   F "Psd[11].Rsvd23" 1 9;
   F "Psd[12].MaxPower" 2 1;
   F "Psd[12].Rsvd2" 1 1;
   F "Psd[12].Flags" 1 1;
   F "Psd[12].EntryLat" 4 1;
   F "Psd[12].ExitLat" 4 1;
   F "Psd[12].Readput" 1 1;
   F "Psd[12].ReadLat" 1 1;
   F "Psd[12].Writeput" 1 1;
   F "Psd[12].WriteLat" 1 1;
   F "Psd[12].IdlePower" 2 1;
   F "Psd[12].IdleScale" 1 1;
   F "Psd[12].Rsvd19" 1 1;
   F "Psd[12].ActivePower" 2 1;
   F "Psd[12].ActiveWorkScale" 1 1;
   F "Psd[12].Rsvd23" 1 9;
   F "Psd[13].MaxPower" 2 1;
   F "Psd[13].Rsvd2" 1 1;
   F "Psd[13].Flags" 1 1;
   F "Psd[13].EntryLat" 4 1;
   F "Psd[13].ExitLat" 4 1;
   F "Psd[13].Readput" 1 1;
   F "Psd[13].ReadLat" 1 1;
   F "Psd[13].Writeput" 1 1;
   F "Psd[13].WriteLat" 1 1;
   F "Psd[13].IdlePower" 2 1;
   F "Psd[13].IdleScale" 1 1;
   F "Psd[13].Rsvd19" 1 1;
   F "Psd[13].ActivePower" 2 1;
   F "Psd[13].ActiveWorkScale" 1 1;
   F "Psd[13].Rsvd23" 1 9;
   F "Psd[14].MaxPower" 2 1;
   F "Psd[14].Rsvd2" 1 1;
   F "Psd[14].Flags" 1 1;
   F "Psd[14].EntryLat" 4 1;
   F "Psd[14].ExitLat" 4 1;
   F "Psd[14].Readput" 1 1;
   F "Psd[14].ReadLat" 1 1;
   F "Psd[14].Writeput" 1 1;
   F "Psd[14].WriteLat" 1 1;
   F "Psd[14].IdlePower" 2 1;
   F "Psd[14].IdleScale" 1 1;
   F "Psd[14].Rsvd19" 1 1;
   F "Psd[14].ActivePower" 2 1;
   F "Psd[14].ActiveWorkScale" 1 1;
   F "Psd[14].Rsvd23" 1 9;
   F "Psd[15].MaxPower" 2 1;
   F "Psd[15].Rsvd2" 1 1;
   F "Psd[15].Flags" 1 1;
   F "Psd[15].EntryLat" 4 1;
   F "Psd[15].ExitLat" 4 1;
   F "Psd[15].Readput" 1 1;
   F "Psd[15].ReadLat" 1 1;
   F "Psd[15].Writeput" 1 1;
   F "Psd[15].WriteLat" 1 1;
   F "Psd[15].IdlePower" 2 1;
   F "Psd[15].IdleScale" 1 1;
   F "Psd[15].Rsvd19" 1 1;
   F "Psd[15].ActivePower" 2 1;
   F "Psd[15].ActiveWorkScale" 1 1;
   F "Psd[15].Rsvd23" 1 9;
   F "Psd[16].MaxPower" 2 1;
   F "Psd[16].Rsvd2" 1 1;
   F "Psd[16].Flags" 1 1;
   F "Psd[16].EntryLat" 4 1;
   F "Psd[16].ExitLat" 4 1;
   F "Psd[16].Readput" 1 1;
   F "Psd[16].ReadLat" 1 1;
   F "Psd[16].Writeput" 1 1;
   F "Psd[16].WriteLat" 1 1;
   F "Psd[16].IdlePower" 2 1;
   F "Psd[16].IdleScale" 1 1;
   F "Psd[16].Rsvd19" 1 1;
   F "Psd[16].ActivePower" 2 1;
   F "Psd[16].ActiveWorkScale" 1 1;
   F "Psd[16].Rsvd23" 1 9;
   F "Psd[17].MaxPower" 2 1;
   F "Psd[17].Rsvd2" 1 1;
   F "Psd[17].Flags" 1 1;
   F "Psd[17].EntryLat" 4 1;
   F "Psd[17].ExitLat" 4 1;
   F "Psd[17].Readput" 1 1;
   F "Psd[17].ReadLat" 1 1;
   F "Psd[17].Writeput" 1 1;
   F "Psd[17].WriteLat" 1 1;
   F "Psd[17].IdlePower" 2 1;
   F "Psd[17].IdleScale" 1 1;
   F "Psd[17].Rsvd19" 1 1;
   F "Psd[17].ActivePower" 2 1;
   F "Psd[17].ActiveWorkScale" 1 1;
   F "Psd[17].Rsvd23" 1 9;
   F "Psd[18].MaxPower" 2 1;
   F "Psd[18].Rsvd2" 1 1;
   F "Psd[18].Flags" 1 1;
   F "Psd[18].EntryLat" 4 1;
   F "Psd[18].ExitLat" 4 1;
   F "Psd[18].Readput" 1 1;
   F "Psd[18].ReadLat" 1 1;
   F "Psd[18].Writeput" 1 1;
   F "Psd[18].WriteLat" 1 1;
   F "Psd[18].IdlePower" 2 1;
   F "Psd[18].IdleScale" 1 1;
   F "Psd[18].Rsvd19" 1 1;
   F "Psd[18].ActivePower" 2 1;
   F "Psd[18].ActiveWorkScale" 1 1;
   F "Psd[18].Rsvd23" 1 9;
   F "Psd[19].MaxPower" 2 1;
   F "Psd[19].Rsvd2" 1 1;
   F "Psd[19].Flags" 1 1;
   F "Psd[19].EntryLat" 4 1;
   F "Psd[19].ExitLat" 4 1;
   F "Psd[19].Readput" 1 1;
   F "Psd[19].ReadLat" 1 1;
   F "Psd[19].Writeput" 1 1;
   F "Psd[19].WriteLat" 1 1;
   F "Psd[19].IdlePower" 2 1;
   F "Psd[19].IdleScale" 1 1;
   F "Psd[19].Rsvd19" 1 1;
   F "Psd[19].ActivePower" 2 1;
   F "Psd[19].ActiveWorkScale" 1 1;
   F "Psd[19].Rsvd23" 1 9;
   F "Psd[20].MaxPower" 2 1;
   F "Psd[20].Rsvd2" 1 1;
   F "Psd[20].Flags" 1 1;
   F "Psd[20].EntryLat" 4 1;
   F "Psd[20].ExitLat" 4 1;
   F "Psd[20].Readput" 1 1;
   F "Psd[20].ReadLat" 1 1;
   F "Psd[20].Writeput" 1 1;
   F "Psd[20].WriteLat" 1 1;
   F "Psd[20].IdlePower" 2 1;
   F "Psd[20].IdleScale" 1 1;
   F "Psd[20].Rsvd19" 1 1;
   F "Psd[20].ActivePower" 2 1;
   F "Psd[20].ActiveWorkScale" 1 1;
   F "Psd[20].Rsvd23" 1 9;
   F "Psd[21].MaxPower" 2 1;
   F "Psd[21].Rsvd2" 1 1;
   F "Psd[21].Flags" 1 1;
   F "Psd[21].EntryLat" 4 1;
   F "Psd[21].ExitLat" 4 1;
   F "Psd[21].Readput" 1 1;
   F "Psd[21].ReadLat" 1 1;
   F "Psd[21].Writeput" 1 1;
   F "Psd[21].WriteLat" 1 1;
   F "Psd[21].IdlePower" 2 1;
   F "Psd[21].IdleScale" 1 1;
   F "Psd[21].Rsvd19" 1 1;
   F "Psd[21].ActivePower" 2 1;
   F "Psd[21].ActiveWorkScale" 1 1;
   F "Psd[21].Rsvd23" 1 9;
   F "Psd[22].MaxPower" 2 1;
   F "Psd[22].Rsvd2" 1 1;
   F "Psd[22].Flags" 1 1;
   F "Psd[22].EntryLat" 4 1;
   F "Psd[22].ExitLat" 4 1;
   F "Psd[22].Readput" 1 1;
   F "Psd[22].ReadLat" 1 1;
   F "Psd[22].Writeput" 1 1;
   F "Psd[22].WriteLat" 1 1;
   F "Psd[22].IdlePower" 2 1;
   F "Psd[22].IdleScale" 1 1;
   F "Psd[22].Rsvd19" 1 1;
   F "Psd[22].ActivePower" 2 1;
   F "Psd[22].ActiveWorkScale" 1 1;
   F "Psd[22].Rsvd23" 1 9;
   F "Psd[23].MaxPower" 2 1;
   F "Psd[23].Rsvd2" 1 1;
   F "Psd[23].Flags" 1 1;
   F "Psd[23].EntryLat" 4 1;
   F "Psd[23].ExitLat" 4 1;
   F "Psd[23].Readput" 1 1;
   F "Psd[23].ReadLat" 1 1;
   F "Psd[23].Writeput" 1 1;
   F "Psd[23].WriteLat" 1 1;
   F "Psd[23].IdlePower" 2 1;
   F "Psd[23].IdleScale" 1 1;
   F "Psd[23].Rsvd19" 1 1;
   F "Psd[23].ActivePower" 2 1;
   F "Psd[23].ActiveWorkScale" 1 1;
   F "Psd[23].Rsvd23" 1 9;
   F "Psd[24].MaxPower" 2 1;
   F "Psd[24].Rsvd2" 1 1;
   F "Psd[24].Flags" 1 1;
   F "Psd[24].EntryLat" 4 1;
   F "Psd[24].ExitLat" 4 1;
   F "Psd[24].Readput" 1 1;
   F "Psd[24].ReadLat" 1 1;
   F "Psd[24].Writeput" 1 1;
   F "Psd[24].WriteLat" 1 1;
   F "Psd[24].IdlePower" 2 1;
   F "Psd[24].IdleScale" 1 1;
   F "Psd[24].Rsvd19" 1 1;
   F "Psd[24].ActivePower" 2 1;
   F "Psd[24].ActiveWorkScale" 1 1;
   F "Psd[24].Rsvd23" 1 9;
   F "Psd[25].MaxPower" 2 1;
   F "Psd[25].Rsvd2" 1 1;
   F "Psd[25].Flags" 1 1;
   F "Psd[25].EntryLat" 4 1;
   F "Psd[25].ExitLat" 4 1;
   F "Psd[25].Readput" 1 1;
   F "Psd[25].ReadLat" 1 1;
   F "Psd[25].Writeput" 1 1;
   F "Psd[25].WriteLat" 1 1;
   F "Psd[25].IdlePower" 2 1;
   F "Psd[25].IdleScale" 1 1;
   F "Psd[25].Rsvd19" 1 1;
   F "Psd[25].ActivePower" 2 1;
   F "Psd[25].ActiveWorkScale" 1 1;
   F "Psd[25].Rsvd23" 1 9;
   F "Psd[26].MaxPower" 2 1;
   F "Psd[26].Rsvd2" 1 1;
   F "Psd[26].Flags" 1 1;
   F "Psd[26].EntryLat" 4 1;
   F "Psd[26].ExitLat" 4 1;
   F "Psd[26].Readput" 1 1;
   F "Psd[26].ReadLat" 1 1;
   F "Psd[26].Writeput" 1 1;
   F "Psd[26].WriteLat" 1 1;
   F "Psd[26].IdlePower" 2 1;
   F "Psd[26].IdleScale" 1 1;
   F "Psd[26].Rsvd19" 1 1;
   F "Psd[26].ActivePower" 2 1;
   F "Psd[26].ActiveWorkScale" 1 1;
   F "Psd[26].Rsvd23" 1 9;
   F "Psd[27].MaxPower" 2 1;
   F "Psd[27].Rsvd2" 1 1;
   F "Psd[27].Flags" 1 1;
   F "Psd[27].EntryLat" 4 1;
   F "Psd[27].ExitLat" 4 1;
   F "Psd[27].Readput" 1 1;
   F "Psd[27].ReadLat" 1 1;
   F "Psd[27].Writeput" 1 1;
   F "Psd[27].WriteLat" 1 1;
   F "Psd[27].IdlePower" 2 1;
   F "Psd[27].IdleScale" 1 1;
   F "Psd[27].Rsvd19" 1 1;
   F "Psd[27].ActivePower" 2 1;
   F "Psd[27].ActiveWorkScale" 1 1;
   F "Psd[27].Rsvd23" 1 9;
   F "Psd[28].MaxPower" 2 1;
   F "Psd[28].Rsvd2" 1 1;
   F "Psd[28].Flags" 1 1;
   F "Psd[28].EntryLat" 4 1;
   F "Psd[28].ExitLat" 4 1;
   F "Psd[28].Readput" 1 1;
   F "Psd[28].ReadLat" 1 1;
   F "Psd[28].Writeput" 1 1;
   F "Psd[28].WriteLat" 1 1;
   F "Psd[28].IdlePower" 2 1;
   F "Psd[28].IdleScale" 1 1;
   F "Psd[28].Rsvd19" 1 1;
   F "Psd[28].ActivePower" 2 1;
   F "Psd[28].ActiveWorkScale" 1 1;
   F "Psd[28].Rsvd23" 1 9;
   F "Psd[29].MaxPower" 2 1;
   F "Psd[29].Rsvd2" 1 1;
   F "Psd[29].Flags" 1 1;
   F "Psd[29].EntryLat" 4 1;
   F "Psd[29].ExitLat" 4 1;
   F "Psd[29].Readput" 1 1;
   F "Psd[29].ReadLat" 1 1;
   F "Psd[29].Writeput" 1 1;
   F "Psd[29].WriteLat" 1 1;
   F "Psd[29].IdlePower" 2 1;
   F "Psd[29].IdleScale" 1 1;
   F "Psd[29].Rsvd19" 1 1;
   F "Psd[29].ActivePower" 2 1;
   F "Psd[29].ActiveWorkScale" 1 1;
   F "Psd[29].Rsvd23" 1 9;
   F "Psd[30].MaxPower" 2 1;
   F "Psd[30].Rsvd2" 1 1;
   F "Psd[30].Flags" 1 1;
   F "Psd[30].EntryLat" 4 1;
   F "Psd[30].ExitLat" 4 1;
   F "Psd[30].Readput" 1 1;
   F "Psd[30].ReadLat" 1 1;
   F "Psd[30].Writeput" 1 1;
   F "Psd[30].WriteLat" 1 1;
   F "Psd[30].IdlePower" 2 1;
   F "Psd[30].IdleScale" 1 1;
   F "Psd[30].Rsvd19" 1 1;
   F "Psd[30].ActivePower" 2 1;
   F "Psd[30].ActiveWorkScale" 1 1;
   F "Psd[30].Rsvd23" 1 9;
   F "Psd[31].MaxPower" 2 1;
   F "Psd[31].Rsvd2" 1 1;
   F "Psd[31].Flags" 1 1;
   F "Psd[31].EntryLat" 4 1;
   F "Psd[31].ExitLat" 4 1;
   F "Psd[31].Readput" 1 1;
   F "Psd[31].ReadLat" 1 1;
   F "Psd[31].Writeput" 1 1;
   F "Psd[31].WriteLat" 1 1;
   F "Psd[31].IdlePower" 2 1;
   F "Psd[31].IdleScale" 1 1;
   F "Psd[31].Rsvd19" 1 1;
   F "Psd[31].ActivePower" 2 1;
   F "Psd[31].ActiveWorkScale" 1 1;
   F "Psd[31].Rsvd23" 1 9;
   F "Vs" 1 1024].

(** nvme/types.go:417-428 *)
Definition lay_SanitizeLogPage : list fld :=
  [F "Progress" 2 1;
   F "Status" 2 1;
   F "Cdw10Info" 4 1;
   F "EstOverwriteime" 4 1;
   F "EstBlockEraseime" 4 1;
   F "EstCryptoEraseime" 4 1;
   F "EstOverwriteimeWithNoDeallocate" 4 1;
   F "EstBlockEraseimeWithNoDeallocate" 4 1;
   F "EstCryptoEraseimeWithNoDeallocate" 4 1].

(** nvme/types.go:434-457 *)
Definition lay_SmartLogPage : list fld :=
  [F "CriticalWarning" 1 1;
   F "CompositeTemperature" 2 1;
   F "AvailableSpare" 1 1;
   F "AvailableSpareThreshold" 1 1;
   F "PercentageUsed" 1 1;
   F "Rev01" 1 26;
   F "DataUnitsRead" 1 16;
   F "DataUnitsWritten" 1 16;
   F "HostReadCommands" 1 16;
   F "HostWriteCommands" 1 16;
   F "ControllerBusyTime" 1 16;
   F "PowerCycles" 1 16;
   F "PowerOnHours" 1 16;
   F "UnsafeShutdowns" 1 16;
   F "MediaAndDataIntegrityErrors" 1 16;
   F "NumberOfErrorInformationLogEntries" 1 16;
   F "WarningCompositeTemperatureTime" 1 4;
   F "CriticalCompositeTemperatureTime" 1 4;
   F "TemperatureSensor" 2 8;
   F "ThermalManagementTemperatureTransitionCount" 4 2;
   F "TotalimeForThermalManagementTemperature" 4 2;
   F "RevRemaining" 1 280].

(** tcg/types.go:42-48 *)
Definition lay_Discovery0Header : list fld :=
  [F "Length" 4 1;
   F "Revision" 4 1;
   F "Reserved01" 4 1;
   F "Reserved02" 4 1;
   F "Reserved03" 1 16].

(** tcg/types.go:50-56 *)
Definition lay_Discovery0BasicFeature : list fld :=
  [F "FeatureCode" 2 1;
   F "B02" 1 1;
   F "Length" 1 1].

(** tcg/types.go:61-77 *)
Definition lay_Discovery0TPerFeature : list fld :=
  [F "FeatureCode" 2 1;
   F "B02" 1 1;
   F "Length" 1 1;
   F "B04" 1 1;
   F "Reserved03" 4 1;
   F "Reserved04" 4 1;
   F "Reserved05" 4 1].

(** tcg/types.go:82-98 *)
Definition lay_Discovery0LockingFeature : list fld :=
  [F "FeatureCode" 2 1;
   F "B02" 1 1;
   F "Length" 1 1;
   F "B04" 1 1;
   F "Reserved03" 4 1;
   F "Reserved04" 4 1;
   F "Reserved05" 4 1].

(** tcg/types.go:103-114 *)
Definition lay_Discovery0GeometryReportingFeature : list fld :=
  [F "FeatureCode" 2 1;
   F "B02" 1 1;
   F "Length" 1 1;
   F "B04" 1 1;
   F "Reserved02" 1 7;
   F "LogicalBlockSize" 4 1;
   F "AlignmentGranularity" 8 1;
   F "LowestAlignedLba" 8 1].

(** tcg/types.go:119-125 *)
Definition lay_Discovery0OpalSSCFeatureV100 : list fld :=
  [F "FeatureCode" 2 1;
   F "B02" 1 1;
   F "Length" 1 1;
   F "BaseComID" 2 1;
   F "NumComIDs" 2 1].

(** tcg/types.go:131-144 *)
Definition lay_Discovery0OpalSSCFeatureV200 : list fld :=
  [F "FeatureCode" 2 1;
   F "B02" 1 1;
   F "Length" 1 1;
   F "BaseComID" 2 1;
   F "NumComIDs" 2 1;
   F "B08" 1 1;
   F "NumLockingAdmin" 2 1;
   F "NumLockingUser" 2 1;
   F "InitialPin" 1 1;
   F "RevetedPin" 1 1;
   F "Reserved02" 1 1;
   F "Reserved03" 4 1].

(** tcg/types.go:149-160 *)
Definition lay_Discovery0EnterpriseSSCFeature : list fld :=
  [F "FeatureCode" 2 1;
   F "B02" 1 1;
   F "Length" 1 1;
   F "BaseComID" 2 1;
   F "NumberComIDs" 2 1;
   F "B08" 1 1;
   F "Reserved02" 1 1;
   F "Reserved03" 2 1;
   F "Reserved04" 4 1;
   F "Reserved05" 4 1].

(** tcg/types.go:165-174 *)
Definition lay_Discovery0SingleUserModeFeature : list fld :=
  [F "FeatureCode" 2 1;
   F "B02" 1 1;
   F "Length" 1 1;
   F "NumberLockingObj" 4 1;
   F "B08" 1 1;
   F "Reserved02" 1 1;
   F "Reserved03" 2 1;
   F "Reserved04" 4 1].

(** tcg/types.go:179-187 *)
Definition lay_Discovery0DataStoreTableFeature : list fld :=
  [F "FeatureCode" 2 1;
   F "B02" 1 1;
   F "Length" 1 1;
   F "Reserved01" 2 1;
   F "MaxTables" 2 1;
   F "MaxSizeTables" 4 1;
   F "TableSizeAlignment" 4 1].
