(** Non-vacuity for C176: the miniport of C131 with the answer to the Get in place of the answer to the Revert. *)
From Verif Require Import Base M_Buffer M_Struc M_Ata M_TcgToken M_TcgCommand M_TcgDevice M_TcgSession M_DriveHandle M_Cdb M_SgDriver M_Strings M_LinuxFactory M_TcgOnDrive
  M_WinPass M_WinNvme M_WinInfo M_WinFactory Spec_Drive Spec_LinuxFactory Spec_Sg Prop_Sg Spec_WinPass Spec_WinNvme Prop_WinPass Prop_WinNvme Prop_WinDrive Prop_WinInfo
  Spec_WinFactory P_WinFactory Spec_Tcg Spec_TcgCommand Spec_TcgClient Spec_TcgSession Spec_TcgOnDrive P_TcgOnDrive P_TcgOnWin Prop_TcgOnWin Spec_LinuxSystem Prop_LinuxTcg
  Spec_WinSystem P_WinSystem Prop_WinSystem Prop_WinTcg Ex_TcgSession Ex_TcgOnDrive Ex_LinuxSystem Ex_WinInfo Ex_TcgOnWin Ex_WinSystem.

Definition expw_mini : wsys :=
  {| s_io := fun h => match last h (WClose 0) with
       | WIo c => if wc_code c =? 0x41018 then exi_ans 0 [8; 0; 0; 0; 4; 0; 0; 0] [] 8
                  else if wc_code c =? 0x4d008 then
                    exi_ans 0 (zeros 152 ++ (if nth 52 (wc_in c) 0 =? 0x06 then exy_identify else if le_val (slice 92 4 (wc_in c)) =? 0x01000100 then exy_level0
                                             else ex_packet (if (List.length (filter exw_mout h) =? 1)%nat then ex_sync else ex_pin))) [] 4248
                  else exi_ans 1 [] [] 0
       | _ => exi_ans 0 [] [] 0 end;
     s_open := fun _ => inr 77 |}.
Lemma expw_system : wf_system expw_mini.
Proof.
  intros h. cbn [expw_mini s_io]. destruct (last h (WClose 0)) as [c| |]; try (split; apply wf_nil). destruct (wc_code c =? 0x41018); [split; [wf_lit|apply wf_nil]|].
  destruct (wc_code c =? 0x4d008); [|split; apply wf_nil]. split; [|apply wf_nil]. cbn [wa_out exi_ans]. rewrite wf_app. split; [apply wf_zeros|].
  destruct (_ =? 6); [unfold exy_identify; rewrite !wf_app; repeat split; auto using wf_zeros; wf_lit|]. destruct (_ =? 0x01000100); [apply exy_level0_wf|].
  apply exo_packet_wf. destruct (_ =? _)%nat; wf_lit.
Qed.
Example expw_mini_accepted : exists d g, accepted_by expw_mini exi_A [] 5 KNvmeWin d g /\ wd_scsi d = 77.
Proof.
  do 2 eexists. split.
  - do 2 eexists. exists []. do 2 eexists. split; [vm_compute; reflexivity|]. split; [reflexivity|]. split; [constructor|]. vm_compute. reflexivity.
  - reflexivity.
Qed.
Example expw_mini_answer : let h' := fst (win_open_by_handle expw_mini exi_A [] 5 (str "d")) in
  win_ok (s_io expw_mini h') /\ firstn 2048 (fill (zeros 4096) (skipn 152 (wa_out (s_io expw_mini h')))) = fill (zeros 2048) exy_level0.
Proof. split; vm_compute; reflexivity. Qed.
Definition expw_mini_run := match exz_open expw_mini with
  | Ok x => match win_device_of x (fun _ _ => 0), f_drv x with
    | Ok d, Some (d0, h0, cs) =>
        let V := win_drv expw_mini exi_A d0 h0 in
        let '(t, r) := get_default_password (drive_env V (f_dh x) cs slept exo_kdf (fun _ => 0) 500) d [] in
        Some (r, map (fun e => match e with WIo c => (wc_handle c, nth 52 (wc_in c) 0, le_val (slice 92 4 (wc_in c))) | _ => (0, 0, 0) end)
                   (skipn (List.length h0) (win_replay expw_mini exi_A d0 h0 (driver_calls V (f_dh x) cs t))))
    | _, _ => None end
  | _ => None end.
Example expw_mini_msid : expw_mini_run =
  Some (Ok [77; 83; 73; 68], [(77, 0x82, 0x01000100); (77, 0x81, 0x01100400); (77, 0x82, 0x01100400); (77, 0x81, 0x01100400); (77, 0x82, 0x01100400)]).
Proof. vm_compute. reflexivity. Qed.
