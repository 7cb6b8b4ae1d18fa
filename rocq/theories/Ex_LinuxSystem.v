(** Non-vacuity for C121-C125: concrete systems with an NVMe drive, a SATA drive, a broken drive and no drive. *)
From Verif Require Import Base M_Buffer M_Struc M_Ata M_TcgToken M_TcgCommand M_TcgDevice M_TcgSession M_DriveHandle M_Cdb M_SgDriver M_SgHandle M_NvmeLinux M_Strings M_LinuxInfo M_LinuxFactory
  M_LinuxSystem M_TcgOnDrive Spec_Drive Prop_Drive Spec_LinuxFactory P_LinuxFactory Prop_LinuxFactory Spec_NvmeLinux Spec_Sg P_Sg Prop_Sg
  Prop_NvmeLinux Prop_SgHandle Spec_Tcg Spec_TcgCommand Spec_TcgClient Spec_TcgSession Spec_TcgOnDrive P_TcgSession P_TcgOnDrive Spec_LinuxSystem P_LinuxSystem Prop_LinuxSystem Prop_LinuxTcg Ex_TcgSession Ex_TcgOnDrive.

Definition exy_features : list feature :=
  [{| ft_code := 0x0001; ft_version := 0x10; ft_body := [0x11] ++ zeros 11 |};
   {| ft_code := 0x0002; ft_version := 0x10; ft_body := [0x09] ++ zeros 11 |};
   {| ft_code := 0x0203; ft_version := 0x20; ft_body := [0x10; 0x04; 0; 1] ++ zeros 12 |}].
Definition exy_header : bytes := be_bytes 4 (44 + blen (descriptors exy_features)) ++ [0; 0; 0; 1] ++ zeros 24.
Definition exy_level0 : bytes := exy_header ++ zeros 16 ++ descriptors exy_features.
Definition exy_identify : bytes := zeros 4 ++ str "S1234567890ABCDEF   " ++ str "ACME NVMe 1TB                           " ++ str "FW01    ".
(** the controller: IDENTIFY, Level 0 discovery, then the TCG dialogue of Ex_TcgOnDrive *)
Definition exy_nvme (h : nv_hist) : nv_ans :=
  {| na_errno := 0; na_ret := 0; na_result := 0;
     na_in := if (List.length h =? 1)%nat then exy_identify else if (List.length h =? 2)%nat then exy_level0
              else ex_packet (if (List.length (nvme_received h) =? 1)%nat then ex_sync else ex_plain 0) |}.
Definition exy_refuse_nvme (h : nv_hist) : nv_ans := {| na_errno := 25; na_ret := 0; na_result := 0; na_in := [] |}.
Definition exy_refuse_sg (h : sg_hist) : sg_ans := {| an_errno := 25; an_ret := 0; an_in := []; an_sense := []; an_status := None |}.
Definition exy_world : world :=
  {| w_open := fun _ => inr 7; w_basic := w_basic refusing; w_ids := w_ids refusing; w_probe := fun _ => inl (EMsg ""); w_dir := fun _ => inr []; w_mode := fun _ => None |}.
Definition exy_sys (kn : nv_kern) (ks : kern) : system :=
  {| sy_world := exy_world; sy_nvme := fun _ => kn; sy_nvme_addr := fun _ _ => 4096; sy_sg := fun _ => ks; sy_sg_addr := fun _ _ => 8192 |}.
Definition exy_path : bytes := str "/dev/nvme0n1".
Definition exy_open kn ks := snd (open_by_path (linux (exy_sys kn ks)) [] exy_path).
Definition exy_view (r : res handle) := match r with
  | Ok x => Some (l_driver_name x, texts (p_info (l_dh x)), (i_support (p_info (l_dh x)), l_opal2 (i_tcg (p_info (l_dh x))), l_locking (i_tcg (p_info (l_dh x))), l_enterprise (i_tcg (p_info (l_dh x)))))
  | _ => None end.

Example exy_addresses kn ks : addresses_ok (exy_sys kn ks).
Proof. split; intros; reflexivity. Qed.
Example exy_conforming : level0_answer (fill (zeros 2048) exy_level0) exy_features.
Proof.
  exists exy_header, (zeros (2048 - List.length exy_level0)). split; [vm_compute; reflexivity|]. split; [reflexivity|]. split; [vm_compute; reflexivity|].
  repeat constructor; try (vm_compute; reflexivity); discriminate.
Qed.
(** the NVMe drive: C121, C122 *)
Example exy_nvme_open : exy_view (exy_open exy_nvme exy_refuse_sg) =
  Some (str "LinuxNvmeDriver", (str "ACME NVMe 1TB", str "S1234567890ABCDEF", str "FW01"), (1%Z, true, true, false)).
Proof. vm_compute. reflexivity. Qed.
(** no driver accepts: C121 *)
Example exy_none_open : exy_view (exy_open exy_refuse_nvme exy_refuse_sg) = Some ([], ([], [], []), (0%Z, false, false, false)).
Proof. vm_compute. reflexivity. Qed.
(** the SATA drive: C121, C123 *)
Definition exy_ata_identify : bytes := put 54 (str "CAEMS TA A                              ") (put 20 (str "321                 ") (put 46 (str "WF30    ") (zeros 512))).
Definition exy_sata (h : sg_hist) : sg_ans :=
  {| an_errno := 0; an_ret := 0; an_in := if (List.length h =? 1)%nat then exy_ata_identify else exy_level0; an_sense := []; an_status := Some 0 |}.
Example exy_sata_open : exy_view (exy_open exy_refuse_nvme exy_sata) =
  Some (str "LinuxScsiDriver", (str "ACME SATA", str "23 1", str "FW03"), (1%Z, true, true, false)).
Proof. vm_compute. reflexivity. Qed.
(** a drive whose first descriptor runs over the 2048 bytes: C124 *)
Definition exy_broken (h : nv_hist) : nv_ans :=
  {| na_errno := 0; na_ret := 0; na_result := 0; na_in := if (List.length h =? 1)%nat then exy_identify else be_bytes 4 2048 ++ zeros 28 ++ concat (repeat ([0; 9; 0; 251] ++ zeros 251) 8) |}.
Example exy_broken_open : exy_open exy_broken exy_refuse_sg = Panic.
Proof. vm_compute. reflexivity. Qed.
Example exy_refuses : no_nvme exy_refuse_nvme /\ no_sg exy_refuse_sg.
Proof. split; intros h (A & _); discriminate A. Qed.

(** C125: the whole way from the path to the reverted drive *)
Definition exy_handle : option handle := match exy_open exy_nvme exy_refuse_sg with Ok x => Some x | _ => None end.
Example exy_device : match exy_handle with Some x => match device_of x (fun _ _ => 0) with Ok d => Some (get_device_type d, get_base_com_id d) | _ => None end | None => None end = Some (3, Ok 0x1004).
Proof. vm_compute. reflexivity. Qed.
Example exy_ssc : listed 0x0200 exy_features = false /\ option_map (be16_at 4) (last_listed 0x0203 exy_features) = Some 0x1004.
Proof. split; vm_compute; reflexivity. Qed.
Definition exy_dialogue := match exy_handle with
  | Some x => match device_of x (fun _ _ => 0), l_drv x with
    | Ok d, Some V => let '(t, r) := revert_tper (drive_env V (l_dh x) (l_calls x) slept exo_kdf (fun _ => 0) 500) d [112; 119] false false [] in
        Some (r, map (fun c => (nc_fd c, up_opcode (read_passthru (nc_arg c)), up_cdw10 (read_passthru (nc_arg c))))
                   (nvme_ioctls (exy_sys exy_nvme exy_refuse_sg) (at_nvme [] exy_path 7) (with_calls x (driver_calls V (l_dh x) (l_calls x) t))))
    | _, _ => None end
  | None => None end.
Example exy_revert : exy_dialogue = Some (Ok tt,
  [(7, 0x06, 1); (7, 0x82, 0x01000100); (7, 0x81, 0x01100400); (7, 0x82, 0x01100400); (7, 0x81, 0x01100400); (7, 0x82, 0x01100400)]).
Proof. vm_compute. reflexivity. Qed.
Lemma exy_level0_wf : wf exy_level0.
Proof. unfold exy_level0, exy_header. rewrite !wf_app. repeat split; auto using wf_zeros, be_bytes_wf; wf_lit. Qed.
Example exy_bytes : forall k, wf (na_in (exy_nvme k)).
Proof.
  intros k. cbn [exy_nvme na_in]. destruct (_ =? 1)%nat; [unfold exy_identify; rewrite !wf_app; repeat split; auto using wf_zeros; wf_lit|].
  destruct (_ =? 2)%nat; [apply exy_level0_wf|]. apply exo_packet_wf. destruct (_ =? _)%nat; wf_lit.
Qed.
