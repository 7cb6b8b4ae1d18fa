(** C183 on a concrete Windows machine with a miniport whose NVMe drive answers Authenticate by the book. *)
From Verif Require Import Base M_Buffer M_Struc M_Ata M_TcgToken M_TcgCommand M_TcgDevice M_TcgSession M_DriveHandle M_Cdb M_SgDriver M_Strings M_LinuxFactory M_TcgOnDrive
  M_WinPass M_WinNvme M_WinInfo M_WinFactory Spec_Drive Spec_LinuxFactory Spec_Sg P_Sg Prop_Sg Spec_WinPass Spec_WinNvme Prop_WinPass Prop_WinNvme Prop_WinDrive Prop_WinInfo
  Spec_WinFactory P_WinFactory Spec_Tcg Spec_TcgCommand Spec_TcgClient Spec_TcgSession P_TcgDevice P_TcgSession Spec_TcgOnDrive P_TcgOnDrive P_TcgOnWin Prop_TcgOnWin Spec_LinuxSystem Prop_LinuxTcg
  Spec_WinSystem P_WinSystem Prop_WinSystem Prop_WinTcg Ex_TcgSession Ex_TcgOnDrive Ex_LinuxSystem Ex_WinInfo Ex_TcgOnWin Ex_WinSystem Inst_Tcg Inst_Linux
  Spec_Challenge P_Challenge Prop_Challenge Spec_Conform Prop_Conform Ex_Conform Spec_NvmeConform P_NvmeConform Prop_NvmeConform Ex_NvmeConform Spec_WinConform P_WinConform Prop_WinConform
  Ex_WinConform Spec_Verdict Prop_Verdict Ex_Verdict Spec_VerdictWin Prop_VerdictWin.

Definition exvw_mini : wsys :=
  {| s_io := fun h => match last h (WClose 0) with
       | WIo c => if wc_code c =? 0x41018 then exi_ans 0 [8; 0; 0; 0; 4; 0; 0; 0] [] 8
                  else if wc_code c =? 0x4d008 then
                    exi_ans 0 (zeros 152 ++ (if mp_opcode (miniport_decode (wc_in c)) =? 0x06 then exy_identify
                                             else if mp_cdw10 (miniport_decode (wc_in c)) =? 0x01000100 then exy_level0 else exvd_answer (excw_sent h))) [] 4248
                  else exi_ans 1 [] [] 0
       | _ => exi_ans 0 [] [] 0 end;
     s_open := fun _ => inr 77 |}.
Lemma exvw_system : wf_system exvw_mini.
Proof.
  intros h. cbn [exvw_mini s_io]. destruct (last h (WClose 0)) as [c| |]; try (split; apply wf_nil). destruct (wc_code c =? 0x41018); [split; [wf_lit|apply wf_nil]|].
  destruct (wc_code c =? 0x4d008); [|split; apply wf_nil]. split; [|apply wf_nil]. cbn [wa_out exi_ans]. rewrite wf_app. split; [apply wf_zeros|].
  destruct (_ =? 6); [unfold exy_identify; rewrite !wf_app; repeat split; auto using wf_zeros; wf_lit|]. destruct (_ =? 0x01000100); [apply exy_level0_wf|]. unfold exvd_answer. destruct (_ =? 0xFF); [|destruct (list_eq_dec _ _ _)]; apply excf_packet_wf; wf_now.
Qed.
Lemma exvw_answer h : excw_security (last h (WClose 0)) -> s_io exvw_mini h = exi_ans 0 (zeros 152 ++ exvd_answer (excw_sent h)) [] 4248.
Proof.
  intros (c & E & Ec & Eo & E10). cbn [exvw_mini s_io]. rewrite E, Ec, Eo, E10. reflexivity.
Qed.
Lemma exvw_replies k packet p atoms : List.length packet = N.to_nat 512 -> exvd_answer packet = ex_packet p -> wf p -> p = stream atoms -> (List.length p <= 100)%nat ->
  be32_at off_sub_len (firstn 56 (ex_packet p)) = blen p -> be32_at off_outstanding (received (ex_packet p)) = 0 -> has_payload (received (ex_packet p)) ->
  Forall atom_ok atoms -> visible atoms = atoms -> mp_replies exvw_mini 77 0x1004 packet k 0 atoms.
Proof.
  intros Lp Ea W Es L B O Pay Ok_ V c rs Sc Rr Lr.
  rewrite (exvw_answer _ (excw_last k c rs (proj1 (excw_send_is _ _ Sc Lp)) Rr)), (excw_received k c rs packet Sc Lp Rr), Ea.
  split; [reflexivity|]. intros page D. cbn [wa_out exi_ans] in D. split; [lia|]. intros _.
  assert (Eb : firstn (N.to_nat 2048) page = received (ex_packet p)).
  { assert (Sk : skipn 152 (zeros 152 ++ ex_packet p) = ex_packet p) by (rewrite skipn_app; unfold zeros; rewrite excn_skip, repeat_length; reflexivity).
    rewrite Sk in D. rewrite (delivered_unique _ _ _ _ D (fill_delivered _ _)), excw_page by lia. unfold received. replace (N.to_nat 2048) with 2048%nat by (vm_compute; reflexivity). reflexivity. }
  rewrite Eb. split; [intros [Hw _]; exact (Hw O)|]. split; [exact Pay|]. exists atoms. split; [now apply excf_carries|]. auto.
Qed.
Lemma exvw_sync k packet : List.length packet = N.to_nat 512 -> exvd_answer packet = ex_packet ex_sync -> mp_replies exvw_mini 77 0x1004 packet k 0 excf_sync.
Proof.
  intros Lk Ea. apply (exvw_replies k packet ex_sync); [exact Lk|exact Ea|wf_now|reflexivity|apply Nat.leb_le; reflexivity|vm_compute; reflexivity|vm_compute; reflexivity|
    vm_compute; repeat split; discriminate| |reflexivity]. unfold excf_sync, sync_session, status_list. excn_atoms.
Qed.
Lemma exvw_says (b : bool) k packet : List.length packet = N.to_nat 512 -> exvd_answer packet = ex_packet (if b then exvd_true else exvd_false) ->
  mp_replies exvw_mini 77 0x1004 packet k 0 (boolean_result b).
Proof.
  intros Lk Ea. apply (exvw_replies k packet (if b then exvd_true else exvd_false)); [exact Lk|exact Ea|destruct b; wf_now|destruct b; reflexivity|destruct b; apply Nat.leb_le; reflexivity|
    destruct b; vm_compute; reflexivity|destruct b; vm_compute; reflexivity|destruct b; vm_compute; repeat split; discriminate| |destruct b; reflexivity].
  unfold boolean_result, status_list. destruct b; excn_atoms.
Qed.
Theorem exvw_judges k : mp_judges exvw_mini 77 0x1004 k 0 uid_AdminSP uid_SID exvd_pin 105 0x12345678.
Proof.
  split.
  - exists (Short false false [105]), (Short false false [0x12; 0x34; 0x56; 0x78]), [].
    split; [split; [split; [wf_now|reflexivity]|right; exists [105]; auto]|]. split; [split; [split; [wf_now|reflexivity]|right; exists [0x12; 0x34; 0x56; 0x78]; auto]|].
    apply exvw_sync; [unfold open_packet; rewrite frame_length; reflexivity|]. vm_compute. reflexivity.
  - intros c rs ch _ _ W L. apply exvw_says; [unfold judge_packet; rewrite frame_length; reflexivity|]. now apply exvd_judge_answer.
Qed.
Lemma exvw_accepted : exists d g, accepted_by exvw_mini exi_A [] 5 KNvmeWin d g /\ wd_scsi d = 77.
Proof.
  do 2 eexists. split.
  - do 2 eexists. exists []. do 2 eexists. split; [vm_compute; reflexivity|]. split; [reflexivity|]. split; [constructor|]. vm_compute. reflexivity.
  - reflexivity.
Qed.
Lemma exvw_computed : excw_check exvw_mini = true.
Proof. vm_compute. reflexivity. Qed.

(** The PIN fails, every other password "succeeds"; with hashing every password "succeeds". *)
Theorem ex_C183_windows pw : wf pw -> 1 <= blen pw <= 400 -> exists x d0 h0 cs dev, f_drv x = Some (d0, h0, cs) /\ win_device_of x (fun _ _ => 0) = Ok dev /\
  let outcome plain := open_and_authenticate (drive_env (win_drv exvw_mini exi_A d0 h0) (f_dh x) cs slept exo_kdf (fun _ => 0) 500) dev plain uid_AdminSP uid_SID pw [] in
  (pw = exvd_pin -> outcome true = Some (Err (EFmt "authentication failed: %d" 1))) /\ (pw <> exvd_pin -> outcome true = Some (Ok tt)) /\ outcome false = Some (Ok tt).
Proof.
  intros W L. destruct (excw_checked _ exvw_computed) as (x & d0 & h0 & cs & dev & h' & Ho & Hdr & Hd & Hs & Ho2). destruct exvw_accepted as (d & g & Ac & E77). destruct inst_listed as (L1 & L2 & L3).
  exists x, d0, h0, cs, dev. split; [exact Hdr|]. split; [exact Hd|].
  assert (C16 : be16_at 4 inst_opal2 = 0x1004) by (vm_compute; reflexivity).
  assert (Sk : skipn 152 (zeros 152 ++ exy_level0) = exy_level0) by (rewrite skipn_app; unfold zeros; rewrite excn_skip, repeat_length; reflexivity).
  assert (Dp : delivered (zeros (N.to_nat 4096)) (skipn 152 (wa_out (s_io exvw_mini h'))) (fill (zeros (N.to_nat 4096)) exy_level0)) by (rewrite Ho2, Sk; apply fill_delivered).
  assert (L0 : level0_answer (firstn (N.to_nat 2048) (fill (zeros (N.to_nat 4096)) exy_level0)) exy_features).
  { rewrite excw_page by lia. pose proof exy_conforming as Q. unfold fill in Q. unfold zeros in Q at 1 2. rewrite repeat_length, excn_skip in Q. replace (N.to_nat 2048) with 2048%nat by (vm_compute; reflexivity). exact Q. }
  pose proof (C183_windows_from_handle exvw_mini exi_A [] 5 (str "d") d g h' x _ exy_features inst_opal2 (fun _ _ => 0) dev slept exo_kdf (fun _ => 0) 500%nat d0 h0 cs uid_AdminSP uid_SID exvd_pin pw 0%nat 105 0x12345678
    exvw_system Ac Ho (fun _ => eq_refl) exo_kdf_ok Hs Dp L0 L1 L2 L3 Hd Hdr) as P. rewrite C16, E77 in P.
  specialize (P ltac:(lia) (excn_fast 0 ltac:(lia)) ltac:(wf_now) eq_refl ltac:(wf_now) eq_refl W L (exvw_judges _)). cbv zeta in P |- *. destruct P as (P1 & P2 & P3).
  split; [exact P1|]. split; [exact P2|]. apply P3. vm_compute. discriminate.
Qed.
Print Assumptions ex_C183_windows.
