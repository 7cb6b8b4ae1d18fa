(** Specification vocabulary: where NVMe 1.3 (5.14.1.2, 5.14.1.9.2) and the TCG specifications (core 3.3.6, Opal 3.1.1, Enterprise 3.6.2,
    Single User Mode 4.2.1, DataStore 4.1.1) put the fields.  Byte offsets; no reference to the model. *)
From Verif Require Import Base Spec_Identity.

Definition sanitize_places : list place :=
  [ At 0 "Progress" 2; At 2 "Status" 2; At 4 "Cdw10Info" 4; At 8 "EstOverwriteime" 4; At 12 "EstBlockEraseime" 4; At 16 "EstCryptoEraseime" 4;
    At 20 "EstOverwriteimeWithNoDeallocate" 4; At 24 "EstBlockEraseimeWithNoDeallocate" 4; At 28 "EstCryptoEraseimeWithNoDeallocate" 4 ].

Definition smart_places : list place :=
  [ At 0 "CriticalWarning" 1; At 1 "CompositeTemperature" 2; At 3 "AvailableSpare" 1; At 4 "AvailableSpareThreshold" 1; At 5 "PercentageUsed" 1;
    Bytes 6 "Rev01" 26; Bytes 32 "DataUnitsRead" 16; Bytes 48 "DataUnitsWritten" 16; Bytes 64 "HostReadCommands" 16; Bytes 80 "HostWriteCommands" 16;
    Bytes 96 "ControllerBusyTime" 16; Bytes 112 "PowerCycles" 16; Bytes 128 "PowerOnHours" 16; Bytes 144 "UnsafeShutdowns" 16;
    Bytes 160 "MediaAndDataIntegrityErrors" 16; Bytes 176 "NumberOfErrorInformationLogEntries" 16; Bytes 192 "WarningCompositeTemperatureTime" 4;
    Bytes 196 "CriticalCompositeTemperatureTime" 4; ("TemperatureSensor"%string, (200, (2, 8)))%nat;
    ("ThermalManagementTemperatureTransitionCount"%string, (216, (4, 2)))%nat; ("TotalimeForThermalManagementTemperature"%string, (224, (4, 2)))%nat;
    Bytes 232 "RevRemaining" 280 ].

(** TCG descriptors: code, length byte, places of the fields after the common four bytes *)
Definition common4 : list place := [ At 0 "FeatureCode" 2; At 2 "B02" 1; At 3 "Length" 1 ].
Definition tper_places : list place := common4 ++ [ At 4 "B04" 1 ].
Definition locking_places : list place := common4 ++ [ At 4 "B04" 1 ].
Definition geometry_places : list place :=
  common4 ++ [ At 4 "B04" 1; Bytes 5 "Reserved02" 7; At 12 "LogicalBlockSize" 4; At 16 "AlignmentGranularity" 8; At 24 "LowestAlignedLba" 8 ].
Definition enterprise_places : list place := common4 ++ [ At 4 "BaseComID" 2; At 6 "NumberComIDs" 2; At 8 "B08" 1 ].
Definition opal1_places : list place := common4 ++ [ At 4 "BaseComID" 2; At 6 "NumComIDs" 2 ].
Definition single_places : list place := common4 ++ [ At 4 "NumberLockingObj" 4; At 8 "B08" 1 ].
Definition store_places : list place := common4 ++ [ At 6 "MaxTables" 2; At 8 "MaxSizeTables" 4; At 12 "TableSizeAlignment" 4 ].
Definition opal2_places : list place :=
  common4 ++ [ At 4 "BaseComID" 2; At 6 "NumComIDs" 2; At 8 "B08" 1; At 9 "NumLockingAdmin" 2; At 11 "NumLockingUser" 2; At 13 "InitialPin" 1;
               At 14 "RevetedPin" 1 ].

(** The value of the length byte the standards give each descriptor (bytes after the common four); Opal 1 has 16 of which 12 are reserved. *)
Definition standard_length : list (N * nat) :=
  [ (0x0001, 12%nat); (0x0002, 12%nat); (0x0003, 28%nat); (0x0100, 16%nat); (0x0200, 16%nat); (0x0201, 12%nat); (0x0202, 12%nat); (0x0203, 16%nat) ].
