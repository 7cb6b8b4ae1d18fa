(** Non-vacuity for C119-C120: the simulated Opal 2 drive of Ex_TcgSession behind the Windows drivers. *)
From Verif Require Import Base M_Buffer M_Ata M_TcgToken M_TcgCommand M_TcgDevice M_TcgSession M_DriveHandle M_Cdb M_SgDriver M_NvmeLinux M_Strings M_TcgOnDrive M_WinPass M_WinNvme
  Spec_Tcg Spec_TcgCommand Spec_TcgClient Spec_TcgSession P_TcgDevice P_TcgSession Spec_NvmeLinux Spec_Sg Spec_WinPass Spec_WinNvme
  P_WinPass P_WinNvme Spec_TcgOnDrive P_TcgOnDrive P_TcgOnWin.
From Verif Require Import Prop_WinPass Prop_WinNvme Prop_WinDrive Prop_TcgOnWin Ex_TcgSession Ex_TcgOnDrive.

(** A drive behind the SCSI driver that takes whatever it is sent for a method call: SyncSession after the first send, success after the second.
    The CDB's first byte is at offset 36 of the request: B5h out, A2h in. *)
Definition exw_out (e : wev) : bool := match e with WIo c => nth 36 (wc_in c) 0 =? 0xB5 | _ => false end.
Definition exw_scsi : wsys :=
  {| s_io := fun h => {| wa_err := 0; wa_out := []; wa_mem := ex_packet (if (List.length (filter exw_out h) =? 1)%nat then ex_sync else ex_plain 0); wa_ret := 0 |};
     s_open := fun _ => inr 3 |}.
Definition exw_d (k : wkind) : wdh := {| wd_kind := k; wd_handle := 3; wd_scsi := 4; wd_identity := zeros 512 |}.
Definition exw_a : waddr := {| ad_data := fun _ => 1024; ad_bounce := fun _ => 4096 |}.
Definition exw_ps : dh := {| p_dh := Some {| is_ata := true; is_nvme := false |}; p_info := new_info [] |}.
Definition exw_clock (n : nat) : N := 1000000 * N.of_nat n.
Definition exw_run (pw : bytes) (psid : bool) :=
  revert_tper (drive_env (win_drv exw_scsi exw_a (exw_d KScsi) []) exw_ps [] (fun t => exw_clock (List.length t)) exo_kdf (fun _ => 0) 500) ex_dev pw psid false [].
(** the hypotheses of C119 hold, and the operation succeeds - with any password at all *)
Example exw_hyps : wd_kind (exw_d KScsi) <> KNvmeWin /\ over_win (exw_d KScsi) exw_ps /\ addr_ok exw_a /\ wf_system exw_scsi.
Proof.
  split; [discriminate|]. split; [reflexivity|]. split; [intros k; split; reflexivity|]. intros k. cbn [exw_scsi s_io wa_out wa_mem]. split; [apply wf_nil|].
  apply exo_packet_wf. destruct (_ =? _)%nat; wf_lit.
Qed.
Example exw_right : snd (exw_run [112; 119] false) = Ok tt.
Proof. vm_compute. reflexivity. Qed.
Example exw_other : snd (exw_run [120] true) = Ok tt.
Proof. vm_compute. reflexivity. Qed.
Example exw_cdbs : map (fun e => match e with WIo c => (wc_code c, nth 36 (wc_in c) 0, blen (wc_mem c)) | _ => (0, 0, 0) end)
   (win_replay exw_scsi exw_a (exw_d KScsi) [] (driver_calls (win_drv exw_scsi exw_a (exw_d KScsi) []) exw_ps [] (fst (exw_run [112; 119] false))))
  = [(0x4d014, 0xB5, 512); (0x4d014, 0xA2, 2048); (0x4d014, 0xB5, 512); (0x4d014, 0xA2, 2048)].
Proof. vm_compute. reflexivity. Qed.

(** The same drive behind the miniport: opcode at offset 52, the page at 152. *)
Definition exw_mout (e : wev) : bool := match e with WIo c => nth 52 (wc_in c) 0 =? 0x81 | _ => false end.
Definition exw_mini : wsys :=
  {| s_io := fun h => {| wa_err := 0; wa_out := zeros 152 ++ ex_packet (if (List.length (filter exw_mout h) =? 1)%nat then ex_sync else ex_plain 0); wa_mem := []; wa_ret := 0 |};
     s_open := fun _ => inr 3 |}.
Definition exw_pn : dh := {| p_dh := Some {| is_ata := false; is_nvme := true |}; p_info := new_info [] |}.
Definition exw_md := win_drv exw_mini exw_a (exw_d KNvmeWin) [].
Definition exw_mrun := revert_tper (drive_env exw_md exw_pn [] slept exo_kdf (fun _ => 0) 500) ex_dev [112; 119] false false [].
Example exw_mhyps : over_win (exw_d KNvmeWin) exw_pn /\ wf_system exw_mini.
Proof.
  split; [reflexivity|]. intros k. cbn [exw_mini s_io wa_out wa_mem]. split; [|apply wf_nil]. rewrite wf_app. split; [apply wf_zeros|].
  apply exo_packet_wf. destruct (_ =? _)%nat; wf_lit.
Qed.
Example exw_mrevert : snd exw_mrun = Ok tt.
Proof. vm_compute. reflexivity. Qed.
(** the frames sit at offset 152 *)
Example exw_frames : map (fun e => match e with WIo c => slice 152 512 (wc_in c) | _ => [] end)
   (filter exw_mout (win_replay exw_mini exw_a (exw_d KNvmeWin) [] (driver_calls exw_md exw_pn [] (fst exw_mrun))))
  = [frame 0 0 0x1004 (start_payload uid_AdminSP (Some ([0xD0; 32] ++ repeat 7 32)) (uid8 uid_SID)); frame 105 0x12345678 0x1004 revert_payload].
Proof. vm_compute. reflexivity. Qed.
