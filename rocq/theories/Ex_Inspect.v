(** Non-vacuity for C142 and C143: inspecting programs, what they send, and what a sending program sends instead. *)
From Verif Require Import Base M_Buffer M_Struc M_Layouts M_Ata M_TcgDevice M_DriveHandle M_Cdb M_SgDriver M_SgHandle M_NvmeLinux M_Strings M_LinuxFactory M_WinPass M_WinNvme M_WinInfo
  M_WinFactory M_WinEnum Spec_Sg Spec_NvmeLinux Spec_WinPass Spec_WinNvme Spec_Inspect Spec_InspectWin Prop_WinDrive P_Inspect P_InspectWin Prop_Inspect
  Ex_Sg Ex_NvmeLinux Ex_WinInfo Ex_WinEnum Ex_WinSystem Ex_WinListing.

Definition exj_look : list hop := [HInit; HType; HSec false false 2 7 (zeros 512) 3; HSec false true 0 0 (zeros 512) 3; HDiscovery; HLog 0xffffffff 2 false 512; HClose; HInit].
Example exj_looks : Forall inspects exj_look.
Proof. unfold exj_look. repeat constructor. Qed.
(** SATA: a drive that refuses SECURITY PROTOCOL IN, so that every question is repeated as TRUSTED RECEIVE. *)
Definition exj_sg (ops : list hop) := fst (hrun (sg_drv (exs_kern []) (fun _ => 4096) [] (zeros 512)) exn_sg_handle [] ops).
Example exj_sata : map (fun c => (hd 0 (sg_cdb c), nth 9 (sg_cdb c) 0)) (sg_replay (exs_kern []) (fun _ => 4096) [] (exj_sg exj_look))
  = [(0xA2, 0); (0xA2, 0); (0xA1, 0x5C); (0xA1, 0x5C); (0xA2, 0); (0xA2, 0); (0xA1, 0x5C); (0xA1, 0x5C); (0xA2, 0); (0xA2, 0); (0xA1, 0x5D); (0xA1, 0x5D);
     (0xA2, 0); (0xA2, 0); (0xA1, 0x5C); (0xA1, 0x5C)].
Proof. vm_compute. reflexivity. Qed.
(** NVMe: Security Receive (82h) four times, Get Log Page. *)
Definition exj_nv (ops : list hop) := fst (hrun (nv_drv (exn_kern []) 5 (fun _ => 4096) [] (zeros 4096)) exn_handle [] ops).
Example exj_nvme : map (fun c => up_opcode (read_passthru (nc_arg c))) (nv_replay (exn_kern []) 5 (fun _ => 4096) [] (exj_nv exj_look)) = [0x82; 0x82; 0x82; 0x82; 0x02].
Proof. vm_compute. reflexivity. Qed.
(** A program that sends is told apart. *)
Example exj_sends : ~ Forall sg_reads (sg_replay (exs_kern []) (fun _ => 4096) [] (exj_sg [HSec true false 1 1 (zeros 512) 3]))
  /\ ~ Forall nv_reads (nv_replay (exn_kern []) 5 (fun _ => 4096) [] (exj_nv [HSec true false 1 1 (zeros 512) 3])).
Proof.
  assert (D : map sg_dir (sg_replay (exs_kern []) (fun _ => 4096) [] (exj_sg [HSec true false 1 1 (zeros 512) 3])) = repeat (-2)%Z 4) by (vm_compute; reflexivity).
  assert (O : map (fun c => up_opcode (read_passthru (nc_arg c))) (nv_replay (exn_kern []) 5 (fun _ => 4096) [] (exj_nv [HSec true false 1 1 (zeros 512) 3])) = [0x81]) by (vm_compute; reflexivity).
  split; intros F.
  - destruct (sg_replay (exs_kern []) (fun _ => 4096) [] _) as [|c l]; [discriminate D|]. apply Forall_inv in F. destruct F as [F _].
    cbn [map repeat] in D. injection D as D _. rewrite F in D. discriminate D.
  - destruct (nv_replay (exn_kern []) 5 (fun _ => 4096) [] _) as [|c l]; [discriminate O|]. apply Forall_inv in F. destruct F as [_ F].
    apply (f_equal (hd 0)) in O. cbn [map hd] in O. rewrite O in F. cbn in F. intuition discriminate.
Qed.
(** Windows: opening a SATA disk behind the SCSI driver. *)
Definition exj_win : wsys := {| s_io := s_io (exz_scsi true); s_open := fun _ => inr 5 |}.
Example exj_open : addr_ok exi_A /\ map (fun e => match e with WIo c => (wc_code c, nth 36 (wc_in c) 0, nth 45 (wc_in c) 0) | _ => (0, 0, 0) end) (fst (win_open_by_path exj_win exi_A [] (str "d")))
  = [(0, 0, 0); (0x2d1080, 0, 0); (0x700a0, 0, 0); (0x70050, 0, 0); (0x41018, 0, 0); (0x2d1400, 0, 0); (0x4d014, 0xA1, 0xEC);
     (0x4d014, 0xA2, 0); (0x4d004, 0xA2, 0); (0x4d014, 0xA1, 0x5C)]
  /\ match snd (win_open_by_path exj_win exi_A [] (str "d")) with Ok x => match f_drv x with Some (d, _, _) => wd_kind d = KScsi | None => False end | _ => False end.
Proof. split; [intros k; split; reflexivity|]. vm_compute. auto. Qed.
(** ... which asks for a reset: the packet of the seventh request is ATA PASS-THROUGH (12) with byte 1 (PROTOCOL) zero. *)
Example exj_reset : exists es c, fst (win_open_by_path exj_win exi_A [] (str "d")) = es /\ In (WIo c) es /\ asks_for_reset c.
Proof.
  destruct exj_open as (HA & _ & H). destruct (win_open_by_path exj_win exi_A [] (str "d")) as [h' r] eqn:E. cbn [snd] in H.
  destruct r as [x| | |]; try contradiction. destruct (f_drv x) as [[[d g] cs]|] eqn:D; [|contradiction].
  destruct (C143_no_reset_refuted exj_win exi_A [] (str "d") h' x d g cs HA E D (or_introl H)) as (es & c & -> & I & R). exists es, c. auto.
Qed.
(** A sending program is told apart on Windows too. *)
Example exj_win_sends : forall es, win_replay exj_win exi_A {| wd_kind := KScsi; wd_handle := 5; wd_scsi := 0; wd_identity := [] |} []
    (fst (hrun (win_drv exj_win exi_A {| wd_kind := KScsi; wd_handle := 5; wd_scsi := 0; wd_identity := [] |} [])
           {| p_dh := Some {| is_ata := true; is_nvme := false |}; p_info := new_info [] |} [] [HSec true false 1 1 (zeros 512) 3])) = es ->
  ~ (forall c, In (WIo c) es -> win_reads c).
Proof.
  intros es E F. vm_compute in E. destruct es as [|[c| |] es]; try discriminate E. injection E as E _. specialize (F c (or_introl eq_refl)). subst c.
  destruct F as [F|[[F _]|[[_ [F _]]|[F _]]]]; vm_compute in F; intuition discriminate.
Qed.
(** EnumDrives over two disks. *)
Example exj_enum : exists es, fst (win_enum_drives (exp_sys false) 5 []) = es /\ (forall c, In (XSys (WIo c)) es -> win_reads c) /\ (12 <= List.length es)%nat.
Proof.
  destruct (C143_enum_drives (exp_sys false) 5 [] ltac:(intros k; split; reflexivity)) as (es & E & F). exists es. split; [exact E|]. split; [exact F|].
  rewrite <- (app_nil_l es), <- E. vm_compute. repeat constructor.
Qed.
