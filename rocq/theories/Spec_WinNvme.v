(** What the NVMe-over-miniport and protocol-specific storage queries look like on the wire, independent of the model. *)
From Verif Require Import Base Spec_WinPass.

(** NVME_PASS_THROUGH_IOCTL (the Intel/OFA "NvmeMini" miniport interface): SRB_IO_CONTROL of 28 bytes, 6 vendor dwords, a 64-byte NVMe
    submission queue entry, a 16-byte completion, and the data at 152. *)
Record miniport := {
  mp_header_length : N; mp_signature : bytes; mp_timeout : N; mp_control : N; mp_length : N;
  mp_opcode : N; mp_nsid : N; mp_cdw10 : N; mp_cdw11 : N; mp_cdw12 : N; mp_cdw13 : N; mp_cdw14 : N; mp_cdw15 : N;
  mp_direction : N;                   (* 1: to the device, 2: from the device *)
  mp_data_length : N; mp_return_length : N; mp_data : bytes;
  mp_rest : bytes                     (* return code, vendor, flags+cid, dwords 2-9, completion, queue, metadata length *)
}.
Definition miniport_decode (b : bytes) : miniport :=
  {| mp_header_length := field 0 4 b; mp_signature := slice 4 8 b; mp_timeout := field 12 4 b; mp_control := field 16 4 b; mp_length := field 24 4 b;
     mp_opcode := reg 52 b; mp_nsid := field 56 4 b; mp_cdw10 := field 92 4 b; mp_cdw11 := field 96 4 b; mp_cdw12 := field 100 4 b;
     mp_cdw13 := field 104 4 b; mp_cdw14 := field 108 4 b; mp_cdw15 := field 112 4 b; mp_direction := field 132 4 b;
     mp_data_length := field 140 4 b; mp_return_length := field 148 4 b; mp_data := skipn 152 b;
     mp_rest := slice 20 4 b ++ slice 28 24 b ++ slice 53 3 b ++ slice 60 32 b ++ slice 116 16 b ++ slice 136 4 b ++ slice 144 4 b |}.
(** An NVMe opcode with bit 0 set moves data to the controller. *)
Definition moves_to_device (opcode : N) : Prop := N.testbit opcode 0 = true.

(** STORAGE_PROPERTY_QUERY followed by STORAGE_PROTOCOL_SPECIFIC_DATA. *)
Record pquery := { pq_property : N; pq_type : N; pq_protocol : N; pq_data_type : N; pq_value : N; pq_offset : N; pq_length : N;
                   pq_subs : list N }.    (* sub value, fixed return data, sub values 2, 3 and 4 *)
Definition pquery_decode (b : bytes) : pquery :=
  {| pq_property := field 0 4 b; pq_type := field 4 4 b; pq_protocol := field 8 4 b; pq_data_type := field 12 4 b; pq_value := field 16 4 b;
     pq_offset := field 24 4 b; pq_length := field 28 4 b;
     pq_subs := [field 20 4 b; field 32 4 b; field 36 4 b; field 40 4 b; field 44 4 b] |}.

(** A decimal numeral without leading zeros. *)
Definition numeral (ds : bytes) : Prop :=
  Forall (fun d => 48 <= d <= 57) ds /\ ds <> [] /\ (forall r, ds = 48 :: r -> r = []).
