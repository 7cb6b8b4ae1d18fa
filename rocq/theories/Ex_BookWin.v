(** C184 and C185 on a concrete Windows machine with a miniport: the drive's dialogue is any function from the packet sent last to the answer. *)
From Verif Require Import Base M_Buffer M_Struc M_Ata M_TcgToken M_TcgCommand M_TcgDevice M_TcgSession M_DriveHandle M_Cdb M_SgDriver M_Strings M_LinuxFactory M_TcgOnDrive
  M_WinPass M_WinNvme M_WinInfo M_WinFactory Spec_Drive Spec_LinuxFactory Spec_Sg P_Sg Prop_Sg Spec_WinPass Spec_WinNvme Prop_WinPass Prop_WinNvme Prop_WinDrive Prop_WinInfo
  Spec_WinFactory P_WinFactory Spec_Tcg Spec_TcgCommand Spec_TcgClient Spec_TcgSession P_TcgDevice P_TcgSession Spec_TcgOnDrive P_TcgOnDrive P_TcgOnWin Prop_TcgOnWin Spec_LinuxSystem Prop_LinuxTcg
  Spec_WinSystem P_WinSystem Prop_WinSystem Prop_WinTcg Ex_TcgSession Ex_TcgOnDrive Ex_LinuxSystem Ex_WinInfo Ex_TcgOnWin Ex_WinSystem Inst_Tcg Inst_Linux
  Spec_Challenge P_Challenge Prop_Challenge Spec_Conform Prop_Conform Ex_Conform Spec_NvmeConform P_NvmeConform Prop_NvmeConform Ex_NvmeConform Spec_WinConform P_WinConform Prop_WinConform
  Ex_WinConform Spec_SidConform Prop_SidConform Prop_SidWin Ex_SidConform Spec_TableConform Prop_TableConform Prop_TableDrive Spec_TableWin Prop_TableWin Ex_TableConform Ex_BookSata.

Definition exbw_mini (answer : bytes -> bytes) : wsys :=
  {| s_io := fun h => match last h (WClose 0) with
       | WIo c => if wc_code c =? 0x41018 then exi_ans 0 [8; 0; 0; 0; 4; 0; 0; 0] [] 8
                  else if wc_code c =? 0x4d008 then
                    exi_ans 0 (zeros 152 ++ (if mp_opcode (miniport_decode (wc_in c)) =? 0x06 then exy_identify
                                             else if mp_cdw10 (miniport_decode (wc_in c)) =? 0x01000100 then exy_level0 else answer (excw_sent h))) [] 4248
                  else exi_ans 1 [] [] 0
       | _ => exi_ans 0 [] [] 0 end;
     s_open := fun _ => inr 77 |}.
Lemma exbw_system answer : (forall c, wf (answer c)) -> wf_system (exbw_mini answer).
Proof.
  intros W h. cbn [exbw_mini s_io]. destruct (last h (WClose 0)) as [c| |]; try (split; apply wf_nil). destruct (wc_code c =? 0x41018); [split; [wf_lit|apply wf_nil]|].
  destruct (wc_code c =? 0x4d008); [|split; apply wf_nil]. split; [|apply wf_nil]. cbn [wa_out exi_ans]. rewrite wf_app. split; [apply wf_zeros|].
  destruct (_ =? 6); [unfold exy_identify; rewrite !wf_app; repeat split; auto using wf_zeros; wf_lit|]. destruct (_ =? 0x01000100); [apply exy_level0_wf|apply W].
Qed.
Lemma exbw_answer answer h : excw_security (last h (WClose 0)) -> s_io (exbw_mini answer) h = exi_ans 0 (zeros 152 ++ answer (excw_sent h)) [] 4248.
Proof. intros (c & E & Ec & Eo & E10). cbn [exbw_mini s_io]. rewrite E, Ec, Eo, E10. reflexivity. Qed.
Lemma exbw_replies answer k packet p atoms : List.length packet = N.to_nat 512 -> answer packet = ex_packet p -> wf p -> p = stream atoms -> (List.length p <= 100)%nat ->
  be32_at off_sub_len (firstn 56 (ex_packet p)) = blen p -> be32_at off_outstanding (received (ex_packet p)) = 0 -> has_payload (received (ex_packet p)) ->
  Forall atom_ok atoms -> visible atoms = atoms -> mp_replies (exbw_mini answer) 77 0x1004 packet k 0 atoms.
Proof.
  intros Lp Ea W Es L B O Pay Ok_ V c rs Sc Rr Lr.
  rewrite (exbw_answer answer _ (excw_last k c rs (proj1 (excw_send_is _ _ Sc Lp)) Rr)), (excw_received k c rs packet Sc Lp Rr), Ea.
  split; [reflexivity|]. intros page D. cbn [wa_out exi_ans] in D. split; [lia|]. intros _.
  assert (Eb : firstn (N.to_nat 2048) page = received (ex_packet p)).
  { assert (Sk : skipn 152 (zeros 152 ++ ex_packet p) = ex_packet p) by (rewrite skipn_app; unfold zeros; rewrite excn_skip, repeat_length; reflexivity).
    rewrite Sk in D. rewrite (delivered_unique _ _ _ _ D (fill_delivered _ _)), excw_page by lia. unfold received. replace (N.to_nat 2048) with 2048%nat by (vm_compute; reflexivity). reflexivity. }
  rewrite Eb. split; [intros [Hw _]; exact (Hw O)|]. split; [exact Pay|]. exists atoms. split; [now apply excf_carries|]. auto.
Qed.
Ltac exbw_go p Lk Ea := apply (exbw_replies _ _ _ p); [exact Lk|exact Ea|wf_now|reflexivity|apply Nat.leb_le; reflexivity|vm_compute; reflexivity|vm_compute; reflexivity|
    vm_compute; repeat split; discriminate| |reflexivity].
Lemma exbw_plain answer (st : N) k packet : st = 0 \/ st = 1 -> List.length packet = N.to_nat 512 -> answer packet = ex_packet (ex_plain st) -> mp_replies (exbw_mini answer) 77 0x1004 packet k 0 (no_result st).
Proof. intros [-> | ->] Lk Ea; [exbw_go (ex_plain 0) Lk Ea|exbw_go (ex_plain 1) Lk Ea]; unfold no_result, status_list; excn_atoms. Qed.
Lemma exbw_row answer k packet : List.length packet = N.to_nat 512 -> answer packet = ex_packet extb_row -> mp_replies (exbw_mini answer) 77 0x1004 packet k 0 (reply_atoms (Shown [extb_name; extb_max])).
Proof. intros Lk Ea. exbw_go extb_row Lk Ea. unfold reply_atoms, row, cell_atoms, status_list. cbn [map concat app extb_name extb_max c_name c_value]. excn_atoms. Qed.
Lemma exbw_granted answer k start : List.length start = N.to_nat 512 -> answer start = ex_packet ex_sync ->
  exists ah at_ more, unsigned_atom ah 105 /\ unsigned_atom at_ 0x12345678 /\ mp_replies (exbw_mini answer) 77 0x1004 start k 0 (sync_session ah at_ more).
Proof.
  intros Lk Ea. exists (Short false false [105]), (Short false false [0x12; 0x34; 0x56; 0x78]), [].
  split; [split; [split; [wf_now|reflexivity]|right; exists [105]; auto]|]. split; [split; [split; [wf_now|reflexivity]|right; exists [0x12; 0x34; 0x56; 0x78]; auto]|].
  exbw_go ex_sync Lk Ea. unfold sync_session, status_list. excn_atoms.
Qed.
(** what the opening looks like, decided by computation for each of the drives *)
Lemma exbw_page : delivered (zeros (N.to_nat 4096)) (skipn 152 (zeros 152 ++ exy_level0)) (fill (zeros (N.to_nat 4096)) exy_level0)
  /\ level0_answer (firstn (N.to_nat 2048) (fill (zeros (N.to_nat 4096)) exy_level0)) exy_features.
Proof.
  assert (Sk : skipn 152 (zeros 152 ++ exy_level0) = exy_level0) by (rewrite skipn_app; unfold zeros; rewrite excn_skip, repeat_length; reflexivity).
  split; [rewrite Sk; apply fill_delivered|].
  rewrite excw_page by lia. pose proof exy_conforming as Q. unfold fill in Q. unfold zeros in Q at 1 2. rewrite repeat_length, excn_skip in Q. replace (N.to_nat 2048) with 2048%nat by (vm_compute; reflexivity). exact Q.
Qed.
Ltac exbw_accepts := do 2 eexists; split; [do 2 eexists; exists []; do 2 eexists; split; [vm_compute; reflexivity|]; split; [reflexivity|]; split; [constructor|]; vm_compute; reflexivity|reflexivity].
Lemma exbw_accepted_short : exists d g, accepted_by (exbw_mini (exsi_answer exsi_short)) exi_A [] 5 KNvmeWin d g /\ wd_scsi d = 77.
Proof. exbw_accepts. Qed.
Lemma exbw_accepted_long : exists d g, accepted_by (exbw_mini (exsi_answer exsi_long)) exi_A [] 5 KNvmeWin d g /\ wd_scsi d = 77.
Proof. exbw_accepts. Qed.
Lemma exbw_accepted_table : exists d g, accepted_by (exbw_mini extb_answer) exi_A [] 5 KNvmeWin d g /\ wd_scsi d = 77.
Proof. exbw_accepts. Qed.
Lemma exbw_computed : excw_check (exbw_mini (exsi_answer exsi_short)) = true /\ excw_check (exbw_mini (exsi_answer exsi_long)) = true /\ excw_check (exbw_mini extb_answer) = true.
Proof. vm_compute. auto. Qed.

(** ---- C184 ---- *)
Theorem exbw_checks pin k : wf pin -> 1 <= blen pin <= 400 -> mp_checks_sid (exbw_mini (exsi_answer pin)) 77 0x1004 k 0 pin 105 0x12345678 1.
Proof.
  intros Wp Lp. split; [|split].
  - apply exbw_granted; [unfold sid_start; rewrite frame_length; reflexivity|]. unfold exsi_answer. rewrite (exsi_started pin Wp Lp), N.eqb_refl. destruct (list_eq_dec _ _ _) as [_|X]; [reflexivity|now elim X].
  - intros ch W L Ne. apply exbw_plain; [now right|unfold sid_start; rewrite frame_length; reflexivity|]. unfold exsi_answer. rewrite (exsi_started ch W L), N.eqb_refl. destruct (list_eq_dec _ _ _) as [X|_]; [|reflexivity].
    elim Ne. now apply exsi_differ.
  - intros c rs _ _. apply exbw_plain; [now left|rewrite frame_length; reflexivity|]. unfold exsi_answer. replace (nth 73 _ 0 =? 0xFF) with false by (vm_compute; reflexivity). reflexivity.
Qed.
Lemma exbw_run pin pw : excw_check (exbw_mini (exsi_answer pin)) = true -> (exists d g, accepted_by (exbw_mini (exsi_answer pin)) exi_A [] 5 KNvmeWin d g /\ wd_scsi d = 77) ->
  wf pin -> 1 <= blen pin <= 400 -> wf pw -> pw <> [] ->
  exists x d0 h0 cs dev, f_drv x = Some (d0, h0, cs) /\ win_device_of x (fun _ _ => 0) = Ok dev /\
  let outcome := snd (revert_tper (drive_env (win_drv (exbw_mini (exsi_answer pin)) exi_A d0 h0) (f_dh x) cs slept exsi_kdf (fun _ => 0) 500) dev pw false false []) in
  let presented := [0xD0; 32] ++ exsi_kdf (firstn 32 pw) [] in
  (presented = pin -> outcome = Ok tt) /\ (presented <> pin -> outcome = Err (ETcg 1)) /\ (blen pin <= 32 -> outcome = Err (ETcg 1)).
Proof.
  intros Ck Acc Wn Ln W Np. destruct (excw_checked _ Ck) as (x & d0 & h0 & cs & dev & h' & Ho & Hdr & Hd & Hs & Ho2). destruct Acc as (d & g & Ac & E77). destruct inst_listed as (L1 & L2 & L3).
  exists x, d0, h0, cs, dev. split; [exact Hdr|]. split; [exact Hd|].
  assert (C16 : be16_at 4 inst_opal2 = 0x1004) by (vm_compute; reflexivity).
  destruct exbw_page as [Dp L0]. rewrite <- Ho2 in Dp.
  pose proof (C184_windows_from_handle (exbw_mini (exsi_answer pin)) exi_A [] 5 (str "d") d g h' x _ exy_features inst_opal2 (fun _ _ => 0) dev slept exsi_kdf (fun _ => 0) 500%nat d0 h0 cs pin pw false 0%nat 105 0x12345678 1
    (exbw_system _ (exsi_answer_wf pin)) Ac Ho (fun _ => eq_refl) exsi_kdf_ok Hs Dp L0 L1 L2 L3 Hd Hdr) as P. rewrite C16, E77 in P.
  exact (P ltac:(lia) (excn_fast 0 ltac:(lia)) W Np Wn (proj1 Ln) (exbw_checks pin _ Wn Ln) ltac:(split; [discriminate|reflexivity])).
Qed.
Theorem ex_C184_windows_short pw : wf pw -> pw <> [] -> exists x d0 h0 cs dev, f_drv x = Some (d0, h0, cs) /\ win_device_of x (fun _ _ => 0) = Ok dev /\
  snd (revert_tper (drive_env (win_drv (exbw_mini (exsi_answer exsi_short)) exi_A d0 h0) (f_dh x) cs slept exsi_kdf (fun _ => 0) 500) dev pw false false []) = Err (ETcg 1).
Proof.
  intros W Np. destruct (exbw_run exsi_short pw (proj1 exbw_computed) exbw_accepted_short ltac:(wf_now) ltac:(vm_compute; split; discriminate) W Np) as (x & d0 & h0 & cs & dev & A & B & _ & _ & Q).
  exists x, d0, h0, cs, dev. split; [exact A|]. split; [exact B|]. apply Q. vm_compute. discriminate.
Qed.
Theorem ex_C184_windows_long : exists x d0 h0 cs dev, f_drv x = Some (d0, h0, cs) /\ win_device_of x (fun _ _ => 0) = Ok dev /\
  snd (revert_tper (drive_env (win_drv (exbw_mini (exsi_answer exsi_long)) exi_A d0 h0) (f_dh x) cs slept exsi_kdf (fun _ => 0) 500) dev [49; 50; 51; 52] false false []) = Ok tt.
Proof.
  destruct (exbw_run exsi_long [49; 50; 51; 52] (proj1 (proj2 exbw_computed)) exbw_accepted_long ltac:(wf_now) ltac:(vm_compute; split; discriminate) ltac:(wf_now) ltac:(discriminate)) as (x & d0 & h0 & cs & dev & A & B & Q & _).
  exists x, d0, h0, cs, dev. split; [exact A|]. split; [exact B|]. apply Q. reflexivity.
Qed.
Print Assumptions ex_C184_windows_long.

(** ---- C185 ---- *)
Theorem exbw_lets k : mp_lets_read (exbw_mini extb_answer) 77 0x1004 k 0 (session_start_packet 0x1004 extb_lsp None extb_anybody) 105 0x12345678 extb_queries extb_answers.
Proof.
  split; [apply exbw_granted; [unfold session_start_packet; rewrite frame_length; reflexivity|vm_compute; reflexivity]|].
  intros c1 k1 _ _. constructor; [apply exbw_row; [unfold query_packet; rewrite frame_length; reflexivity|vm_compute; reflexivity]|].
  intros c2 k2 _ _. constructor; [apply exbw_plain; [now right|unfold query_packet; rewrite frame_length; reflexivity|vm_compute; reflexivity]|].
  intros c3 k3 _ _. constructor; [apply exbw_row; [unfold query_packet; rewrite frame_length; reflexivity|vm_compute; reflexivity]|].
  intros c4 k4 _ _. constructor.
Qed.
Theorem ex_C185_windows : exists x d0 h0 cs dev s h1, f_drv x = Some (d0, h0, cs) /\ win_device_of x (fun _ _ => 0) = Ok dev /\
  let E := drive_env (win_drv (exbw_mini extb_answer) exi_A d0 h0) (f_dh x) cs slept extb_kdf (fun _ => 0) 500 in
  session_start E dev new_session extb_lsp [] (AUid extb_anybody) [] = (s, h1, Ok tt) /\ Forall2 shows (read_all E dev s h1 extb_queries) extb_answers.
Proof.
  destruct (excw_checked _ (proj2 (proj2 exbw_computed))) as (x & d0 & h0 & cs & dev & h' & Ho & Hdr & Hd & Hs & Ho2). destruct exbw_accepted_table as (d & g & Ac & E77). destruct inst_listed as (L1 & L2 & L3).
  assert (C16 : be16_at 4 inst_opal2 = 0x1004) by (vm_compute; reflexivity).
  destruct exbw_page as [Dp L0]. rewrite <- Ho2 in Dp.
  pose proof (C185_windows_from_handle (exbw_mini extb_answer) exi_A [] 5 (str "d") d g h' x _ exy_features inst_opal2 (fun _ _ => 0) dev slept extb_kdf (fun _ => 0) 500%nat d0 h0 cs extb_lsp [] extb_anybody false 0%nat 105 0x12345678
    extb_queries extb_answers (exbw_system _ extb_answer_wf) Ac Ho (fun _ => eq_refl) extb_kdf_ok Hs Dp L0 L1 L2 L3 Hd Hdr) as P. rewrite C16, E77 in P.
  destruct (P ltac:(lia) (excn_fast 0 ltac:(lia)) ltac:(wf_now) eq_refl ltac:(wf_now) ltac:(wf_now) eq_refl (proj1 extb_ok) (proj2 extb_ok) (exbw_lets _)) as (s & h1 & St & Sh).
  exists x, d0, h0, cs, dev, s, h1. split; [exact Hdr|]. split; [exact Hd|]. split; [exact St|exact Sh].
Qed.
Print Assumptions ex_C185_windows.
