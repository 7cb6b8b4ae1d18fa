(** Specification vocabulary for drives opened on a complete Linux system.  From the model it uses the call types and the records of
    the public API. *)
From Verif Require Import Base M_TcgDevice M_DriveHandle M_Cdb M_SgDriver M_NvmeLinux M_Strings M_LinuxFactory Spec_Drive Prop_Drive Spec_LinuxFactory
  Spec_NvmeLinux Prop_NvmeLinux Spec_Sg Prop_Sg.

(** The history of the factory when driver 0 (NVMe) and driver 1 (SG) are tried on descriptor [fd] of [path]. *)
Definition at_nvme (h : lhist) (path : bytes) (fd : N) : lhist := h ++ LOpen path :: firstn 3 (probing fd path).
Definition at_sg (h : lhist) (path : bytes) (fd : N) : lhist := h ++ LOpen path :: probing fd path.

(** ---- Level 0 discovery answers of a conforming drive (TCG core spec 3.3.6): 48 bytes of header, whose first four bytes count what
    follows them, then the descriptors.  The last 16 header bytes (vendor specific) are zero; C33 shows what happens otherwise. *)
Definition level0_answer (ans : bytes) (fs : list feature) : Prop :=
  exists header rest, ans = header ++ zeros 16 ++ descriptors fs ++ rest /\ List.length header = 32%nat
  /\ be32_at 0 header = 44 + blen (descriptors fs) /\ Forall (fun f => feature_ok f /\ ft_body f <> []) fs.
(** The discovery record says exactly that the features [fs] are there. *)
Definition reports (t : level0) (fs : list feature) : Prop :=
  l_tper t = listed 0x0001 fs /\ l_locking t = listed 0x0002 fs /\ l_geometry t = listed 0x0003 fs /\ l_enterprise t = listed 0x0100 fs
  /\ l_opal1 t = listed 0x0200 fs /\ l_single_user t = listed 0x0201 fs /\ l_data_store t = listed 0x0202 fs /\ l_opal2 t = listed 0x0203 fs
  /\ forall code, code <> 0 -> raw_lookup (l_raw t) code = last_listed code fs.
(** An answer whose descriptors run over the 2048 bytes read (C34): the program crashes on it. *)
Definition malformed (ans : bytes) : Prop := be32_at 0 ans <= 2048 /\ runs_over ans (N.to_nat (be32_at 0 ans)).
(** What the drive information says after discovery was answered with [Some ans], or failed. *)
Definition discovery_recorded (answer : option bytes) (i : info) : Prop :=
  match answer with
  | None => i_support i = 0%Z /\ reports (i_tcg i) []
  | Some ans => i_support i = 1%Z /\ ~ malformed ans /\ forall fs, level0_answer ans fs -> reports (i_tcg i) fs
  end.

(** ---- NVMe ---- *)
(** IDENTIFY CONTROLLER into 4096 bytes, then SECURITY RECEIVE (protocol 1, ComID 1) into 2048 bytes *)
Definition nvme_identify (fd : N) (c : nv_call) : Prop :=
  nc_fd c = fd /\ nc_req c = 0xC0484E41 /\ nc_buf c = zeros 4096 /\ exists a, read_passthru (nc_arg c) = identify_view a.
Definition nvme_level0 (fd : N) (c : nv_call) : Prop :=
  nc_fd c = fd /\ nc_req c = 0xC0484E41 /\ nc_buf c = zeros 2048
  /\ exists a, read_passthru (nc_arg c) = plain_view 0x82 0 a 2048 0x01000100 2048.

(** ---- SATA ---- *)
(** ATA PASS-THROUGH (12) of IDENTIFY DEVICE into 512 bytes *)
Definition sata_identify (c : sg_call) : Prop :=
  sg_cdb c = [0xA1; 0x08; 0x0E; 0; 1; 0; 0; 0; 0; 0xEC; 0; 0] /\ sg_len c = 512 /\ sg_dir c = (-3)%Z.
(** SECURITY PROTOCOL IN (protocol 1, specific 1) into 2048 bytes *)
Definition sata_level0 (c : sg_call) : Prop :=
  security_decode (sg_cdb c) = Some {| sc_out := false; sc_protocol := 1; sc_specific := 1; sc_inc512 := false; sc_length := 2048 |}.
(** TRUSTED RECEIVE (protocol 1, ComID 1, 4 blocks) through ATA PASS-THROUGH (12) *)
Definition sata_trusted (c : sg_call) : Prop :=
  exists s, sat_decode (sg_cdb c) = Some s /\ sat_command s = 0x5C /\ sat_features s = 1 /\ sat_count s = 4 /\ sat_lba s = 0x100
  /\ sat_from_device s = true /\ sg_len c = 2048.
(** The kernel refuses every NVMe ioctl, or every SG ioctl. *)
Definition no_nvme (K : nv_kern) : Prop := forall h, ~ nv_succeeded (K h).
Definition no_sg (K : kern) : Prop := forall h, ~ succeeded (K h).
