(** Specification vocabulary for reading a drive's health data. *)
From Verif Require Import Base M_SgDriver Spec_Sg Prop_Sg.

(** SMART READ DATA (D0h) or READ THRESHOLDS (D1h) as ATA8-ACS and SAT-3 want it: command B0h, LBA C24F00h, one 512-byte block, PIO in. *)
Definition smart_request (feature : N) (c : sg_call) : Prop :=
  (exists s, sat_decode (sg_cdb c) = Some s /\ sat_command s = 0xB0 /\ sat_features s = feature /\ sat_lba s = 0xC24F00 /\ sat_count s = 1
     /\ sat_device s = 0 /\ sat_extend s = false /\ sat_protocol s = 4 /\ sat_from_device s = true /\ sat_byte_block s = true /\ sat_t_length s = 2)
  /\ sg_dir c = (-3)%Z /\ sg_len c = 512.
(** What the device answered to the last of the requests [cs]: success, and [block] in full. *)
Definition answers_block (K : kern) (cs : sg_hist) (block : bytes) : Prop :=
  succeeded (K cs) /\ an_in (K cs) = block /\ List.length block = 512%nat.
