(** Non-vacuity for C129-C131: an Opal 2 drive behind each of the four Windows drivers. *)
From Verif Require Import Base M_Buffer M_Struc M_Ata M_TcgToken M_TcgCommand M_TcgDevice M_TcgSession M_DriveHandle M_Cdb M_SgDriver M_Strings M_LinuxFactory M_TcgOnDrive
  M_WinPass M_WinNvme M_WinInfo M_WinFactory Spec_Drive Spec_LinuxFactory Spec_Sg Prop_Sg Spec_WinPass Spec_WinNvme Prop_WinPass Prop_WinNvme Prop_WinDrive Prop_WinInfo
  Spec_WinFactory P_WinFactory Spec_Tcg Spec_TcgCommand Spec_TcgClient Spec_TcgSession Spec_TcgOnDrive P_TcgOnDrive P_TcgOnWin Prop_TcgOnWin Spec_LinuxSystem Prop_LinuxTcg
  Spec_WinSystem P_WinSystem Prop_WinSystem Prop_WinTcg Ex_TcgSession Ex_TcgOnDrive Ex_LinuxSystem Ex_WinInfo Ex_TcgOnWin.

(** ---- the miniport: IDENTIFY (06h), Level 0 discovery (ComID 1), then the TCG dialogue ---- *)
Definition exz_mini : wsys :=
  {| s_io := fun h => match last h (WClose 0) with
       | WIo c => if wc_code c =? 0x41018 then exi_ans 0 [8; 0; 0; 0; 4; 0; 0; 0] [] 8
                  else if wc_code c =? 0x4d008 then
                    exi_ans 0 (zeros 152 ++ (if nth 52 (wc_in c) 0 =? 0x06 then exy_identify else if le_val (slice 92 4 (wc_in c)) =? 0x01000100 then exy_level0
                                             else ex_packet (if (List.length (filter exw_mout h) =? 1)%nat then ex_sync else ex_plain 0))) [] 4248
                  else exi_ans 1 [] [] 0
       | _ => exi_ans 0 [] [] 0 end;
     s_open := fun _ => inr 77 |}.
Lemma exz_system : wf_system exz_mini.
Proof.
  intros h. cbn [exz_mini s_io]. destruct (last h (WClose 0)) as [c| |]; try (split; apply wf_nil). destruct (wc_code c =? 0x41018); [split; [wf_lit|apply wf_nil]|].
  destruct (wc_code c =? 0x4d008); [|split; apply wf_nil]. split; [|apply wf_nil]. cbn [wa_out exi_ans]. rewrite wf_app. split; [apply wf_zeros|].
  destruct (_ =? 6); [unfold exy_identify; rewrite !wf_app; repeat split; auto using wf_zeros; wf_lit|]. destruct (_ =? 0x01000100); [apply exy_level0_wf|].
  apply exo_packet_wf. destruct (_ =? _)%nat; wf_lit.
Qed.
Example exz_accepted : exists d g, accepted_by exz_mini exi_A [] 5 KNvmeWin d g /\ wd_scsi d = 77.
Proof.
  do 2 eexists. split.
  - do 2 eexists. exists []. do 2 eexists. split; [vm_compute; reflexivity|]. split; [reflexivity|]. split; [constructor|]. vm_compute. reflexivity.
  - reflexivity.
Qed.
Definition exz_open (S : wsys) := snd (win_open_by_handle S exi_A [] 5 (str "d")).
Definition exz_view (r : res whandle) := match r with
  | Ok x => Some (f_driver_name x, texts (p_info (f_dh x)), (i_support (p_info (f_dh x)), l_opal2 (i_tcg (p_info (f_dh x))), l_locking (i_tcg (p_info (f_dh x)))))
  | _ => None end.
Example exz_mini_open : exz_view (exz_open exz_mini) = Some (str "NvmeWinDriver", (str "ACME NVMe 1TB", str "S1234567890ABCDEF", str "FW01"), (1%Z, true, true)).
Proof. vm_compute. reflexivity. Qed.
(** the answer Windows delivered for the last request is the one of a conforming drive *)
Example exz_answer : let h' := fst (win_open_by_handle exz_mini exi_A [] 5 (str "d")) in
  win_ok (s_io exz_mini h') /\ firstn 2048 (fill (zeros 4096) (skipn 152 (wa_out (s_io exz_mini h')))) = fill (zeros 2048) exy_level0.
Proof. split; vm_compute; reflexivity. Qed.
(** C131: from the handle to the reverted drive *)
Definition exz_dialogue := match exz_open exz_mini with
  | Ok x => match win_device_of x (fun _ _ => 0), f_drv x with
    | Ok d, Some (d0, h0, cs) =>
        let V := win_drv exz_mini exi_A d0 h0 in
        let '(t, r) := revert_tper (drive_env V (f_dh x) cs slept exo_kdf (fun _ => 0) 500) d [112; 119] false false [] in
        Some (r, map (fun e => match e with WIo c => (wc_handle c, nth 52 (wc_in c) 0, le_val (slice 92 4 (wc_in c))) | _ => (0, 0, 0) end)
                   (skipn (List.length h0) (win_replay exz_mini exi_A d0 h0 (driver_calls V (f_dh x) cs t))))
    | _, _ => None end
  | _ => None end.
Example exz_revert : exz_dialogue = Some (Ok tt, [(77, 0x82, 0x01000100); (77, 0x81, 0x01100400); (77, 0x82, 0x01100400); (77, 0x81, 0x01100400); (77, 0x82, 0x01100400)]).
Proof. vm_compute. reflexivity. Qed.
(** a miniport that refuses SECURITY RECEIVE *)
Definition exz_no_security : wsys :=
  {| s_io := fun h => match last h (WClose 0) with WIo c => if nth 52 (wc_in c) 0 =? 0x82 then exi_ans 1 [] [] 0 else s_io exz_mini h | _ => exi_ans 0 [] [] 0 end; s_open := fun _ => inr 77 |}.
Example exz_no_security_open : exz_view (exz_open exz_no_security) = Some (str "NvmeWinDriver", (str "ACME NVMe 1TB", str "S1234567890ABCDEF", str "FW01"), (0%Z, false, false)).
Proof. vm_compute. reflexivity. Qed.
(** ... and one whose descriptors run over the buffer *)
Definition exz_broken : wsys :=
  {| s_io := fun h => match last h (WClose 0) with
       | WIo c => if nth 52 (wc_in c) 0 =? 0x82 then exi_ans 0 (zeros 152 ++ be_bytes 4 2048 ++ zeros 28 ++ concat (repeat ([0; 9; 0; 251] ++ zeros 251) 8)) [] 0 else s_io exz_mini h
       | _ => exi_ans 0 [] [] 0 end; s_open := fun _ => inr 77 |}.
Example exz_broken_open : exz_open exz_broken = Panic.
Proof. vm_compute. reflexivity. Qed.

(** ---- the storage query driver: SECURITY PROTOCOL IN through SCSI pass-through, answered if [tcg] ---- *)
Definition exz_query (tcg : bool) : wsys :=
  {| s_io := fun h => match last h (WClose 0) with
       | WIo c => if (wc_code c =? 0x2d1400) && negb (blen (wc_in c) =? 12) then exi_ans 0 (zeros 48 ++ fill (zeros 4096) exy_identify) [] 4144
                  else if (wc_code c =? 0x4d014) && tcg then exi_ans 0 [] exy_level0 96
                  else exi_ans 1 [] [] 0
       | _ => exi_ans 0 [] [] 0 end;
     s_open := fun _ => inl (EMsg "no") |}.
Example exz_query_open : exz_view (exz_open (exz_query true)) = Some (str "WindowsNvmeDriver", (str "ACME NVMe 1TB", str "S1234567890ABCDEF", str "FW01"), (1%Z, true, true)).
Proof. vm_compute. reflexivity. Qed.
(** C130: an error is recorded as "no TCG support" *)
Example exz_query_refused : exz_view (exz_open (exz_query false)) = Some (str "WindowsNvmeDriver", (str "ACME NVMe 1TB", str "S1234567890ABCDEF", str "FW01"), ((-1)%Z, false, false)).
Proof. vm_compute. reflexivity. Qed.
(** ---- the SCSI driver: first byte of the packet at offset 36; only TRUSTED RECEIVE is understood ---- *)
Definition exz_scsi (trusted : bool) : wsys :=
  {| s_io := fun h => match last h (WClose 0) with
       | WIo c => if (wc_code c =? 0x4d014) && (nth 36 (wc_in c) 0 =? 0xA1) && ((nth 45 (wc_in c) 0 =? 0xEC) || trusted)
                  then exi_ans 0 [] (if nth 45 (wc_in c) 0 =? 0xEC then exy_ata_identify else exy_level0) 96 else exi_ans 1 [] [] 0
       | _ => exi_ans 0 [] [] 0 end;
     s_open := fun _ => inl (EMsg "no") |}.
Example exz_scsi_open : exz_view (exz_open (exz_scsi true)) = Some (str "WindowsScsiDriver", (str "ACME SATA", str "23 1", str "FW03"), (1%Z, true, true)).
Proof. vm_compute. reflexivity. Qed.
Example exz_scsi_refused : exz_view (exz_open (exz_scsi false)) = Some (str "WindowsScsiDriver", (str "ACME SATA", str "23 1", str "FW03"), (0%Z, false, false)).
Proof. vm_compute. reflexivity. Qed.
(** ---- the ATA driver: the command register at offset 46 ---- *)
Definition exz_ata (status : N) : wsys :=
  {| s_io := fun h => match last h (WClose 0) with
       | WIo c => if wc_code c =? 0x4d030 then (if nth 46 (wc_in c) 0 =? 0xEC then exi_ans 0 (put 46 [0x50] (wc_in c)) exy_ata_identify 48
                                                else exi_ans 0 (put 46 [status] (wc_in c)) exy_level0 48) else exi_ans 1 [] [] 0
       | _ => exi_ans 0 [] [] 0 end;
     s_open := fun _ => inl (EMsg "no") |}.
Example exz_ata_open : exz_view (exz_open (exz_ata 0x50)) = Some (str "WindowsAtaDriver", (str "ACME SATA", str "23 1", str "FW03"), (1%Z, true, true)).
Proof. vm_compute. reflexivity. Qed.
Example exz_ata_failed : exz_view (exz_open (exz_ata 0x51)) = Some (str "WindowsAtaDriver", (str "ACME SATA", str "23 1", str "FW03"), (0%Z, false, false)).
Proof. vm_compute. reflexivity. Qed.
Example exz_addresses : addr_ok exi_A.
Proof. intros k. split; reflexivity. Qed.
(** the hypotheses of C130 hold for all three *)
Ltac refuse := first [eapply refused_none | eapply refused_one; [vm_compute; reflexivity|refuse]].
Example exz_accepted_by : (exists d g, accepted_by (exz_query true) exi_A [] 5 KWinNvme d g) /\ (exists d g, accepted_by (exz_scsi true) exi_A [] 5 KScsi d g)
  /\ exists d g, accepted_by (exz_ata 0x50) exi_A [] 5 KAta d g.
Proof.
  split; [|split].
  - do 2 eexists. do 2 eexists. exists [KNvmeWin]. do 2 eexists. split; [vm_compute; reflexivity|]. split; [reflexivity|]. split; [refuse|]. vm_compute. reflexivity.
  - do 2 eexists. do 2 eexists. exists [KNvmeWin; KWinNvme]. do 2 eexists. split; [vm_compute; reflexivity|]. split; [reflexivity|]. split; [refuse|]. vm_compute. reflexivity.
  - do 2 eexists. do 2 eexists. exists [KNvmeWin; KWinNvme; KScsi]. do 2 eexists. split; [vm_compute; reflexivity|]. split; [reflexivity|]. split; [refuse|]. vm_compute. reflexivity.
Qed.
