(** The theorems from a Windows device to a finished TCG dialogue (C119, C120, C131, C173, C176) applied to concrete systems: every hypothesis is met at once. *)
From Verif Require Import Base M_Buffer M_Struc M_Ata M_TcgToken M_TcgCommand M_TcgDevice M_TcgSession M_DriveHandle M_Cdb M_SgDriver M_Strings M_LinuxFactory M_TcgOnDrive
  M_WinPass M_WinNvme M_WinInfo M_WinFactory Spec_Drive Spec_LinuxFactory Spec_Sg P_Sg Prop_Sg Spec_WinPass Spec_WinNvme Prop_WinPass Prop_WinNvme Prop_WinDrive Prop_WinInfo
  Spec_WinFactory P_WinFactory Spec_Tcg Spec_TcgCommand Spec_TcgClient Spec_TcgSession Spec_TcgOnDrive P_TcgOnDrive P_TcgOnWin Prop_TcgOnWin Spec_LinuxSystem Prop_LinuxTcg
  Spec_WinSystem P_WinSystem Prop_WinSystem Prop_WinTcg M_Sha1 Spec_Sha1 P_Sha1 Prop_Sha1 P_Password Prop_Password Prop_PasswordWin
  Ex_TcgSession Ex_TcgOnDrive Ex_LinuxSystem Ex_WinInfo Ex_TcgOnWin Ex_WinSystem Ex_PasswordWin Inst_Tcg.

(** ---- the drivers alone ---- *)
Example inst_C119_password := C119_password_unused_refuted exw_scsi exw_a (exw_d KScsi) [] exw_ps [] exw_clock exo_kdf (fun _ => 0) 500%nat ex_dev 0x1004 [112; 119] [120] false true false false _ _ _ _
  (proj1 exw_hyps) (proj1 (proj2 exw_hyps)) (proj2 (proj2 (proj2 exw_hyps))) (fun _ => eq_refl) exo_kdf_ok eq_refl inst_com eq_refl ltac:(wf_now) ltac:(wf_now)
  (surjective_pairing _) (surjective_pairing _).
Example inst_C120_revert := C120_revert_over_miniport exw_mini exw_a (exw_d KNvmeWin) [] exw_pn [] slept exo_kdf (fun _ => 0) 500%nat ex_dev 0x1004 [112; 119] false false _ _
  eq_refl (proj1 exw_mhyps) (proj2 exw_mhyps) (fun _ => eq_refl) exo_kdf_ok eq_refl inst_com eq_refl ltac:(wf_now) (surjective_pairing _).

(** ---- from the device handle ---- *)
Definition inst_opened (S : wsys) := win_open_by_handle S exi_A [] 5 (str "d").
Definition inst_page (S : wsys) : bytes := fill (zeros (N.to_nat 4096)) (skipn 152 (wa_out (s_io S (fst (inst_opened S))))).
Lemma inst_opal2 : exists data, listed 0x0200 exy_features = false /\ last_listed 0x0203 exy_features = Some data /\ (8 <= List.length data)%nat.
Proof. eexists. split; [reflexivity|]. split; [reflexivity|]. apply Nat.leb_le. reflexivity. Qed.
Definition win_check (S : wsys) : bool := match snd (inst_opened S) with
  | Ok x => match f_drv x, win_device_of x (fun _ _ => 0) with Some _, Ok _ => true | _, _ => false end
            && (wa_err (s_io S (fst (inst_opened S))) =? 0)
            && (if list_eq_dec N.eq_dec (firstn (N.to_nat 2048) (inst_page S)) (fill (zeros 2048) exy_level0) then true else false)
  | _ => false end.
Lemma win_checked S : win_check S = true -> exists h' x d0 h0 cs dev page,
  win_open_by_handle S exi_A [] 5 (str "d") = (h', Ok x) /\ f_drv x = Some (d0, h0, cs) /\ win_device_of x (fun _ _ => 0) = Ok dev
  /\ win_ok (s_io S h') /\ delivered (zeros (N.to_nat 4096)) (skipn 152 (wa_out (s_io S h'))) page
  /\ level0_answer (firstn (N.to_nat 2048) page) exy_features.
Proof.
  unfold win_check. destruct (snd (inst_opened S)) as [x| | |] eqn:E; try discriminate. intros H.
  apply andb_prop in H as [H H3]. apply andb_prop in H as [H1 H2].
  destruct (f_drv x) as [[[d0 h0] cs]|] eqn:EV; [|discriminate H1]. destruct (win_device_of x _) as [d| | |] eqn:ED; try discriminate H1.
  exists (fst (inst_opened S)), x, d0, h0, cs, d, (inst_page S). split; [fold (inst_opened S); rewrite <- E; apply surjective_pairing|]. split; [exact EV|]. split; [exact ED|]. split; [apply N.eqb_eq; exact H2|].
  split; [apply fill_delivered|]. destruct (list_eq_dec N.eq_dec _ (fill (zeros 2048) exy_level0)) as [Q|]; [rewrite Q; apply exy_conforming|discriminate H3].
Qed.
Lemma inst_win_ok : win_check exz_mini = true /\ win_check expw_mini = true.
Proof. split; vm_compute; reflexivity. Qed.

(** Each of the following opens a drive, makes a device of it and runs the operation; its proof applies the theorem to that run (hypothesis C), every premise being supplied. *)
Example inst_C131 : exists x d0 h0 cs dev t r, f_drv x = Some (d0, h0, cs) /\ win_device_of x (fun _ _ => 0) = Ok dev
  /\ revert_tper (drive_env (win_drv exz_mini exi_A d0 h0) (f_dh x) cs slept exo_kdf (fun _ => 0) 500) dev [112; 119] false false [] = (t, r).
Proof.
  destruct (win_checked _ (proj1 inst_win_ok)) as (h' & x & d0 & h0 & cs & dev & page & Ho & Hv & Hd & Hk & Dp & L0). destruct inst_opal2 as (data & L1 & L2 & L3).
  destruct exz_accepted as (d & g & Ac & _).
  destruct (revert_tper (drive_env (win_drv exz_mini exi_A d0 h0) (f_dh x) cs slept exo_kdf (fun _ => 0) 500) dev [112; 119] false false []) as [t r] eqn:Rt.
  pose proof (C131_revert_on_windows exz_mini exi_A [] 5 (str "d") d g h' x page exy_features data (fun _ _ => 0) dev slept exo_kdf (fun _ => 0) 500%nat [112; 119] false false t r
    exz_system Ac Ho (fun _ => eq_refl) exo_kdf_ok ltac:(wf_now) Hk Dp L0 L1 L2 L3 Hd d0 h0 cs Hv Rt) as C.
  exists x, d0, h0, cs, dev, t, r. auto.
Qed.
Example inst_C173_win : exists x d0 h0 cs dev t r, f_drv x = Some (d0, h0, cs) /\ win_device_of x (fun _ _ => 0) = Ok dev
  /\ revert_tper (drive_env (win_drv exz_mini exi_A d0 h0) (f_dh x) cs slept go_pbkdf2 (fun _ => 0) 500) dev [112; 119] false false [] = (t, r).
Proof.
  destruct (win_checked _ (proj1 inst_win_ok)) as (h' & x & d0 & h0 & cs & dev & page & Ho & Hv & Hd & Hk & Dp & L0). destruct inst_opal2 as (data & L1 & L2 & L3).
  destruct exz_accepted as (d & g & Ac & _).
  destruct (revert_tper (drive_env (win_drv exz_mini exi_A d0 h0) (f_dh x) cs slept go_pbkdf2 (fun _ => 0) 500) dev [112; 119] false false []) as [t r] eqn:Rt.
  pose proof (C173_revert_on_windows exz_mini exi_A [] 5 (str "d") d g h' x page exy_features data (fun _ _ => 0) dev slept (fun _ => 0) 500%nat [112; 119] false false t r
    exz_system Ac Ho (fun _ => eq_refl) ltac:(wf_now) Hk Dp L0 L1 L2 L3 Hd d0 h0 cs Hv Rt) as C.
  exists x, d0, h0, cs, dev, t, r. auto.
Qed.
Example inst_C176 : exists x d0 h0 cs dev t r, f_drv x = Some (d0, h0, cs) /\ win_device_of x (fun _ _ => 0) = Ok dev
  /\ get_default_password (drive_env (win_drv expw_mini exi_A d0 h0) (f_dh x) cs slept exo_kdf (fun _ => 0) 500) dev [] = (t, r).
Proof.
  destruct (win_checked _ (proj2 inst_win_ok)) as (h' & x & d0 & h0 & cs & dev & page & Ho & Hv & Hd & Hk & Dp & L0). destruct inst_opal2 as (data & L1 & L2 & L3).
  destruct expw_mini_accepted as (d & g & Ac & _).
  destruct (get_default_password (drive_env (win_drv expw_mini exi_A d0 h0) (f_dh x) cs slept exo_kdf (fun _ => 0) 500) dev []) as [t r] eqn:Rt.
  pose proof (C176_password_over_miniport expw_mini exi_A [] 5 (str "d") d g h' x page exy_features data (fun _ _ => 0) dev slept exo_kdf (fun _ => 0) 500%nat t r
    expw_system Ac Ho (fun _ => eq_refl) exo_kdf_ok Hk Dp L0 L1 L2 L3 Hd d0 h0 cs Hv Rt) as C.
  exists x, d0, h0, cs, dev, t, r. auto.
Qed.
