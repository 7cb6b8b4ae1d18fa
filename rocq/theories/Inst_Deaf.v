(** C186_from_handle on the SCSI system of Ex_WinSystem. *)
From Verif Require Import Base M_Buffer M_Struc M_Ata M_TcgToken M_TcgCommand M_TcgDevice M_TcgSession M_DriveHandle M_Cdb M_SgDriver M_Strings M_LinuxFactory M_TcgOnDrive
  M_WinPass M_WinNvme M_WinInfo M_WinFactory
  Spec_Drive Spec_LinuxFactory Spec_Sg Spec_WinPass Spec_WinNvme P_WinPass Prop_WinPass Prop_WinNvme Prop_WinDrive
  Spec_WinFactory P_WinFactory Spec_Tcg Spec_TcgSession Spec_TcgOnDrive P_TcgOnDrive P_TcgOnWin Spec_WinSystem P_WinSystem Prop_WinSystem Prop_WinTcg
  M_TcgTables M_TcgProgram Spec_OneSession Spec_Deaf P_Deaf Prop_Deaf Ex_TcgSession Ex_TcgOnDrive Ex_WinInfo Ex_LinuxSystem Ex_WinSystem.

(** words 8 and 9 of the IDENTIFY data and the vendor bytes of the Level 0 header are zero, so none of this drive's answers is a packet *)
Lemma exdf_scsi_answers com k : answers_only_packets (exz_scsi true) 5 com k.
Proof.
  intros cs c _ _. cbn [exz_scsi s_io]. rewrite map_app, app_assoc. cbn [map]. rewrite last_last.
  assert (Z : forall b, (List.length b = 0)%nat \/ b = exy_ata_identify \/ b = exy_level0 -> empty_packet b).
  { intros b H i Hi. assert (X : i = 16%nat \/ i = 17%nat \/ i = 18%nat \/ i = 19%nat) by lia. clear Hi.
    destruct H as [H|[-> | ->]]; [destruct b; [now destruct i|discriminate]|..]; destruct X as [-> |[-> |[-> | ->]]]; vm_compute; reflexivity. }
  apply Z. unfold data_of.
  destruct ((wc_code c =? 0x4d014) || (wc_code c =? 0x4d030)).
  - destruct ((wc_code c =? 0x4d014) && _ && _); cbn [exi_ans wa_mem]; [destruct (_ =? 0xEC)|]; auto.
  - left. destruct ((wc_code c =? 0x4d014) && _ && _); cbn [exi_ans wa_out]; now rewrite skipn_nil.
Qed.
Lemma exdf_scsi_wf : wf_system (exz_scsi true).
Proof.
  intros h. cbn [exz_scsi s_io]. destruct (last h (WClose 0)) as [c| |]; try (split; apply wf_nil).
  destruct ((wc_code c =? 0x4d014) && _ && _); cbn [exi_ans wa_out wa_mem]; (split; [apply wf_nil|]); [|apply wf_nil].
  destruct (_ =? 0xEC); [wf_lit|apply exy_level0_wf].
Qed.
Definition deaf_from (S : wsys) (A : waddr) (hd : N) (path : bytes) : Prop :=
  exists h1 x d0 h0 cs0, win_open_by_handle S A [] hd path = (h1, Ok x) /\ f_drv x = Some (d0, h0, cs0)
  /\ forall clock fuel dev com prog ss h' rs, is_any_ssc dev = true -> get_base_com_id dev = Ok com -> com < 2 ^ 16 -> Forall tcg_call prog ->
     trun (drive_env (win_drv S A d0 h0) (f_dh x) cs0 clock exo_kdf (fun _ => 0) fuel) dev [] [] prog = (ss, h', rs) ->
     Forall2 (fun c r => needs_drive c -> unsuccessful r) prog rs.
Lemma inst_deaf S A hd path kind d g : kind <> KNvmeWin -> accepted_by S A [] hd kind d g -> exz_view (snd (win_open_by_handle S A [] hd path)) <> None ->
  addr_ok A -> wf_system S -> (forall com k, answers_only_packets S hd com k) -> deaf_from S A hd path.
Proof.
  intros Hk Ac V HA HS Q. destruct (win_open_by_handle S A [] hd path) as [h1 r] eqn:Ho. cbn [snd] in V. destruct r as [x|e| |]; try (exfalso; apply V; reflexivity).
  destruct (opened_replay S A [] hd path kind d g h1 x Ac Ho) as (cs1 & (D1 & D2 & _) & Er).
  exists h1, x, d, g, ([CType; CName] ++ cs1). split; [exact Ho|]. split; [exact D2|].
  intros clock fuel dev com prog ss h' rs Hs Hc Hc16 L H.
  refine (proj1 (C186_from_handle S A [] hd path kind d g h1 x d g _ clock exo_kdf (fun _ => 0) fuel dev com prog ss h' rs Hk Ac Ho D2 HA HS _ exo_kdf_ok Hs Hc Hc16 (Q com h1) L H)).
  intros j. reflexivity.
Qed.
Lemma inst_deaf_open S v d g : exz_view (exz_open S) = Some v -> accepted_by S exi_A [] 5 KScsi d g -> wf_system S -> (forall com k, answers_only_packets S 5 com k) ->
  deaf_from S exi_A 5 (str "d").
Proof.
  intros V Ac HS Q. apply (inst_deaf S exi_A 5 (str "d") KScsi d g); [discriminate|exact Ac| |exact exz_addresses|exact HS|exact Q].
  unfold exz_open in V. rewrite V. discriminate.
Qed.
Theorem inst_C186 : deaf_from (exz_scsi true) exi_A 5 (str "d").
Proof. destruct exz_accepted_by as (_ & (d & g & Ac) & _). exact (inst_deaf_open _ _ d g exz_scsi_open Ac exdf_scsi_wf exdf_scsi_answers). Qed.
