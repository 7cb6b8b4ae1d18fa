(** Non-vacuity for C48-C56. *)
From Verif Require Import Base Spec_Buffer M_Buffer M_Struc M_Layouts M_Ata M_TcgDevice M_DriveHandle M_AtaUtil Spec_Drive Spec_Identity
  P_Discovery P_DriveHandle P_Identity Prop_Drive Prop_Identity Ex_Drive.

(** C48: the drive of ex_C36; capacity and flags come out of a concrete block *)
Definition exi_raw : bytes := zeros 118 ++ [16; 0xF1] ++ [0x00; 0x10; 0x20; 0x0f] ++ zeros 76 ++ [1; 2; 3; 4; 5; 6; 0; 0] ++ zeros 130 ++ [1; 0] ++ zeros 172.
Definition exi_drv (raw : bytes) : drv :=
  {| v_io := fun _ => (None, exd_answer); v_tf := fun _ => tf0; v_identity := fun _ => raw; v_log := fun _ => ([], None);
     v_type := fun _ => 1; v_name := fun _ => [] |}.
Example ex_C48 : List.length exi_raw = 512%nat /\
  match i_ata (p_info (fst (snd (init (exi_drv exi_raw) exd_ata_handle [])))) with
  | Some id => field "UserAddressableSectors" id = [0x0f201000] /\ field "Max48bitLba" id = [0x060504030201]
      /\ is_block_erase_ext_supported id = true /\ is_sanitize_operation_standard_compliant id = false
      /\ is_multi_sector_setting_valid id = true /\ get_trim id = true
  | None => False
  end.
Proof. split; [reflexivity|]. vm_compute. auto 10. Qed.

(** C49: one namespace (Nn = 01 00 00 00) is reported as 16777216 *)
Definition exi_nvme_raw : bytes := exd_nvme_raw.
Definition exi_nvme_one : bytes := firstn 516 exd_nvme_raw ++ [1; 0; 0; 0] ++ skipn 520 exd_nvme_raw.
Example ex_C49 : blen exi_nvme_one = 4096 /\ le_val (slice 516 4 exi_nvme_one) = 1 /\
  match i_nvme (p_info (fst (snd (init (exd_nvme exi_nvme_one) exd_nvme_handle [])))) with
  | Some id => field "Nn" id = [16777216] /\ field "Vid" id = [0x4d14]
  | None => False
  end.
Proof. split; [vm_compute; reflexivity|]. split; [vm_compute; reflexivity|]. vm_compute. auto. Qed.

(** C50: an Opal v1 descriptor *)
Definition exi_union : bytes := [2; 0; 0x10; 4; 0x07; 0xfe; 0; 1; 0; 0; 0; 0; 0; 0; 0; 0].
Example ex_C50 : match to_opal_v100 exi_union with Ok v => field "BaseComID" v = [0x07fe] /\ field "NumComIDs" v = [1] | _ => False end
  /\ to_tper exi_union = Err EUnexpectedEOF /\ set_version 0x1b 3 = 0x3b /\ get_version 0x3b = 3.
Proof. vm_compute. auto. Qed.

(** C51: the ATA drive of ex_C36 answering discovery with TPer, Locking and two Opal v2 descriptors *)
Example ex_C51_hypotheses :
  let p := exd_ata_handle in
  p_info p = new_info (i_path (p_info p)) /\ wf (descriptors exd_features) /\
  level0_read exd_ata p [CIdentity] [CIdentity; CSec false false 1 1 (zeros 2048) 3] None (exd_header ++ descriptors exd_features ++ zeros (2048 - 90)).
Proof.
  split; [reflexivity|]. split; [|unfold level0_read; vm_compute; reflexivity].
  assert (H : forallb (fun b => b <? 256) (descriptors exd_features) = true) by (vm_compute; reflexivity).
  apply Forall_forall. intros b Hb. rewrite forallb_forall in H. apply N.ltb_lt, H, Hb.
Qed.
Example ex_C51_result :
  match init exd_ata exd_ata_handle [] with
  | (_, (p', Ok _)) =>
    match new_tcg_device (i_tcg (p_info p')) (i_serial (p_info p')) (fun _ _ => 0) with
    | Ok d => get_device_type d = 3 /\ is_locked d = Ok false /\ is_locking_enabled d = Ok true
    | _ => False
    end
  | _ => False
  end.
Proof. vm_compute. auto. Qed.

(** C52, C53: both answers occur; the last sector a 28-bit command may touch here is 2^28 - 2 *)
Example ex_C52 : is_needs_lba48 0xc8 (2 ^ 28 - 2) 1 = false /\ is_needs_lba48 0xc8 (2 ^ 28 - 2) 2 = true /\ is_needs_lba48 0x25 0 1 = true
  /\ is_needs_lba48 0xb0 (2 ^ 40) 1 = false /\ is_needs_lba48 0xc8 0 256 = true.
Proof. vm_compute. auto 10. Qed.

(** C54 *)
Example ex_C54 : let c := tf_init_local tf0 0x25 0x123456789abc 0x1234 in tf_lba48 c = 0x123456789abc /\ tf_count48 c = 0x1234 /\ t_lba48 c = 1.
Proof. vm_compute. auto. Qed.
Example ex_C54_28 : let c := tf_init_local tf0 0xc8 0x0edcba9 7 in tf_lba28 c = 0x0edcba9 /\ t_dev c = 0x40 /\ t_lba48 c = 0.
Proof. vm_compute. auto. Qed.

(** C55: "AB C  " and an odd block with and without a NUL *)
Example ex_C55 : fix_ata_string_order [0x42; 0x41; 0x43; 0x20; 0x20; 0x20] true = Ok [0x41; 0x42; 0x20; 0x43]
  /\ fix_ata_string_order [0x42; 0x41; 0x43; 0x20; 0x20; 0x20] false = Ok [0x41; 0x42; 0x20; 0x43; 0x20; 0x20]
  /\ fix_ata_string_order [0x42; 0x41; 0x43] true = Panic /\ fix_ata_string_order [0; 0x41; 0x43] true = Ok [0x41].
Proof. vm_compute. auto. Qed.

(** C56: a drive answering both reads, the second one with fewer bytes: the thresholds then show the values' bytes *)
Definition exi_smart : drv :=
  {| v_io := fun h => if (List.length h =? 1)%nat then (None, [0x10; 0; 5; 0x33; 0; 100; 99] ++ zeros 505) else (None, [0x11; 0]);
     v_tf := fun _ => tf0; v_identity := fun _ => []; v_log := fun _ => ([], None); v_type := fun _ => 1; v_name := fun _ => [] |}.
Example ex_C56 : match snd (read_smart exi_smart exd_ata_handle [] 3) with
  | Ok (v, t) => field "RevNumber" v = [0x1000] /\ field (indexed "Attributes" 0 "Flags") v = [0x3300]
      /\ field "RevNumber" t = [0x1100] /\ field (indexed "Attributes" 0 "Id") t = [5] /\ field (indexed "Attributes" 0 "Threshold") t = [0x33]
  | _ => False
  end.
Proof. vm_compute. auto 10. Qed.
