(** Non-vacuity for C148: the development program on a machine with one NVMe drive, on one without, and on one that crashes it while listing volumes. *)
From Verif Require Import Base M_Buffer M_Struc M_Ata M_TcgDevice M_DriveHandle M_Cdb M_SgDriver M_SgHandle M_NvmeLinux M_Strings M_LinuxInfo M_LinuxFactory M_LinuxVolume
  M_LinuxSystem M_Develop Spec_Drive Prop_Drive Spec_LinuxFactory Spec_LinuxVolume Spec_NvmeLinux Spec_Sg Prop_Sg
  Prop_NvmeLinux Prop_SgHandle Spec_LinuxSystem Prop_LinuxSystem Prop_Develop P_LinuxFactory Prop_LinuxFactory Ex_LinuxSystem Ex_LinuxVolume.

(** IDENTIFY, discovery, then the log page *)
Definition exk_page : bytes := [0; 0x2D; 1; 100; 10; 3] ++ zeros 26.
Definition exk_nvme (h : nv_hist) : nv_ans :=
  {| na_errno := 0; na_ret := 0; na_result := 0;
     na_in := if (List.length h =? 1)%nat then exy_identify else if (List.length h =? 2)%nat then exy_level0 else exk_page |}.
Definition exk_world (nvme : bool) : world :=
  {| w_open := fun h => match rev h with
       | LOpen p :: _ => if beq p nvme0n1 && nvme then inr (N.of_nat (List.length h)) else inl (EMsg "no such file or directory")
       | _ => inl (EMsg "") end;
     w_basic := fun _ => exv_disk; w_ids := w_ids refusing; w_probe := fun _ => inl (EMsg "");
     w_dir := fun _ => inr [str "nvme0n1"; str "null"]; w_mode := fun h => match rev h with LStat p :: _ => if beq p nvme0n1 then Some 0x61B0 else Some 0x2180 | _ => None end |}.
Definition exk_sys (nvme : bool) : system :=
  {| sy_world := exk_world nvme; sy_nvme := fun _ => exk_nvme; sy_nvme_addr := fun _ _ => 4096; sy_sg := fun _ => exy_refuse_sg; sy_sg_addr := fun _ _ => 8192 |}.
Definition exk_mounts (text : bytes) (h : lhist) : err + mounts := inr {| mt_text := text; mt_error := None |}.
Definition exk_text : bytes := str "tmpfs /run tmpfs rw 0 0" ++ [10] ++ str "/dev/nvme0n1p2 / ext4 rw 0 0" ++ [10].
(** what is printed, shortened *)
Definition exk_short (s : shown) : bytes * bytes := match s with
  | SError (EMsg m) => (str "error", str m)
  | SError _ => (str "error", [])
  | SDrive i m _ _ _ => (str "drive", m)
  | SVolume i v => (str "volume", vi_path v)
  | SInfo x => (str "info", i_path (p_info (l_dh x)))
  | SPage b => (str "page", firstn 6 b)
  end.
Definition exk_run (nvme : bool) (text : bytes) := develop_linux (exk_sys nvme) (exk_mounts text) (fun vs => vs) [].
Example exk_addresses nvme : addresses_ok (exk_sys nvme).
Proof. split; intros; reflexivity. Qed.

(** The machine with the drive: the program runs to its end; only the descriptor EnumDrives opened (4) is closed. *)
Example exk_good : (map exk_short (rn_shown (snd (exk_run true exk_text))), option_map (fun x => (l_driver_name x, l_fd x)) (rn_end (snd (exk_run true exk_text))),
    filter is_lclose (fst (exk_run true exk_text)))
  = ([(str "error", str "no such file or directory"); (str "drive", str "ACME NVMe 1TB"); (str "volume", str "tmpfs"); (str "volume", str "/dev/nvme0n1p2");
      (str "info", nvme0n1); (str "page", [0; 0x2D; 1; 100; 10; 3])], Some (str "LinuxNvmeDriver", 14), [LClose 4]).
Proof. vm_compute. reflexivity. Qed.
(** Without the drive: an error is printed and the program crashes. *)
Example exk_missing : (map exk_short (rn_shown (snd (exk_run false []))), rn_end (snd (exk_run false [])))
  = ([(str "error", str "no such file or directory"); (str "error", str "no such file or directory")], None).
Proof. vm_compute. reflexivity. Qed.
Example exk_missing_hyp : forall pre, exists e, w_open (sy_world (exk_sys false)) (pre ++ [LOpen nvme0n1]) = inl e.
Proof. intros pre. cbn. rewrite rev_app_distr. cbn. eexists. reflexivity. Qed.
(** A mounted file system whose device is called "...p0": the program crashes while listing the volumes. *)
Example exk_zero : (map exk_short (rn_shown (snd (exk_run true (str "/dev/nvme0n1p0 / ext4")))), rn_end (snd (exk_run true (str "/dev/nvme0n1p0 / ext4"))))
  = ([(str "error", str "no such file or directory"); (str "drive", str "ACME NVMe 1TB")], None).
Proof. vm_compute. reflexivity. Qed.
