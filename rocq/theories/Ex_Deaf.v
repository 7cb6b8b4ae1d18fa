(** Non-vacuity for C186: a drive behind the SCSI driver that opens sessions for whoever gives it a packet. *)
From Verif Require Import Base M_Buffer M_Ata M_TcgToken M_TcgCommand M_TcgDevice M_TcgSession M_DriveHandle M_Cdb M_SgDriver M_NvmeLinux M_Strings M_TcgOnDrive M_WinPass M_WinNvme
  Spec_Tcg Spec_TcgCommand Spec_TcgClient Spec_TcgSession P_TcgDevice P_TcgSession Spec_NvmeLinux Spec_Sg Spec_WinPass Spec_WinNvme
  P_WinPass P_WinNvme Spec_TcgOnDrive P_TcgOnDrive P_TcgOnWin.
From Verif Require Import Prop_WinPass Prop_WinNvme Prop_WinDrive Prop_TcgOnWin M_TcgTables M_TcgProgram Spec_OneSession Ex_TcgSession Ex_TcgOnDrive Ex_TcgOnWin Spec_Deaf P_Deaf Prop_Deaf.

Definition exdf_blank (b : bytes) : bool := forallb (fun x => x =? 0) b.
(** a SCSI request that moves data out (the direction is the byte at 8) and gives the drive something *)
Definition exdf_loud (e : wev) : bool :=
  match e with WIo c => ((wc_code c =? 0x4d014) || (wc_code c =? 0x4d004)) && (nth 8 (wc_in c) 0 =? 0) && negb (exdf_blank (payload c)) | _ => false end.
Definition exdf_drive : wsys :=
  {| s_io := fun h => {| wa_err := 0; wa_out := []; wa_mem := if existsb exdf_loud h then ex_packet ex_sync else zeros 2048; wa_ret := 0 |};
     s_open := fun _ => inr 3 |}.
Lemma blank_zeros n : exdf_blank (zeros n) = true.
Proof. induction n; [reflexivity|exact IHn]. Qed.
Lemma asks_quiet hd com c : asks hd com c -> exdf_loud (WIo c) = false.
Proof.
  intros (_ & [[H (cdb & secs & ptr & _ & R)]|[H _]]); unfold exdf_loud.
  - destruct R as (_ & _ & _ & _ & R & _). cbv zeta in R. unfold spt_decode, sp_data_in, reg in R. rewrite nth_first in R by (apply Nat.ltb_lt; reflexivity). rewrite R, andb_false_r. reflexivity.
  - destruct H as [-> | ->]; reflexivity.
Qed.
Lemma zeros_quiet c : gives_zeros c -> exdf_loud (WIo c) = false.
Proof. intros (n & E). unfold exdf_loud. rewrite E, blank_zeros, andb_false_r. reflexivity. Qed.
Lemma quiet_all hd com cs : Forall (fun x => gives_zeros x \/ asks hd com x) cs -> existsb exdf_loud (map WIo cs) = false.
Proof. induction 1 as [|c cs H _ IH]; [reflexivity|]. cbn [map existsb]. rewrite IH. destruct H as [H|H]; [rewrite (zeros_quiet _ H)|rewrite (asks_quiet _ _ _ H)]; reflexivity. Qed.
Example exdf_answers : answers_only_packets exdf_drive 3 0x1004 [].
Proof.
  intros cs c F H. cbn [app exdf_drive s_io]. rewrite (quiet_all 3 0x1004) by (apply Forall_app; split; [exact F|]; constructor; [now right|constructor]).
  unfold data_of. cbn [wa_mem wa_out]. destruct ((wc_code c =? 0x4d014) || (wc_code c =? 0x4d030)); [apply empty_zeros|]. rewrite skipn_nil. intros i _. now destruct i.
Qed.
(** given a packet it answers one *)
Example exdf_hears c : wc_code c = 0x4d014 -> wc_in c = zeros 96 -> wc_mem c = [0xF8] -> wa_mem (s_io exdf_drive [WIo c]) = ex_packet ex_sync.
Proof. intros H1 H2 H3. cbn [exdf_drive s_io wa_mem existsb exdf_loud]. unfold payload. rewrite H1, H2, H3. reflexivity. Qed.
(** three sessions, reads, the MSID password, reverts *)
Definition exdf_prog : list tcall :=
  [TNew; TSession 0 (SStart uid_AdminSP [] ANil); TSession 0 (SAuth uid_SID [112; 119]); TTable 0 (uid8 uid_SID) 3 3; TPassword; TRevert [112; 119] true false; TRevert [] false false; TNew; TSession 1 (SStart uid_AdminSP [1] (AUid uid_SID))].
Definition exdf_run := trun (drive_env (win_drv exdf_drive exw_a (exw_d KScsi) []) exw_ps [] (fun t => exw_clock (List.length t)) exo_kdf (fun _ => 0) 500) ex_dev [] [] exdf_prog.
Example exdf_hyps : wd_kind (exw_d KScsi) <> KNvmeWin /\ over_win (exw_d KScsi) exw_ps /\ addr_ok exw_a /\ wf_system exdf_drive
  /\ is_any_ssc ex_dev = true /\ get_base_com_id ex_dev = Ok 0x1004 /\ Forall tcg_call exdf_prog.
Proof.
  split; [discriminate|]. split; [reflexivity|]. split; [intros k; split; reflexivity|]. split.
  { intros k. cbn [exdf_drive s_io wa_out wa_mem]. split; [apply wf_nil|]. destruct (existsb _ _); [apply exo_packet_wf; wf_lit|apply wf_zeros]. }
  split; [reflexivity|]. split; [reflexivity|].
  repeat constructor; cbn; auto; try wf_lit; try discriminate.
  exists uid_SID. split; [reflexivity|]. split; [wf_lit|reflexivity].
Qed.
Example exdf_fails : Forall2 (fun c r => needs_drive c -> unsuccessful r) exdf_prog (snd exdf_run).
Proof.
  destruct exdf_hyps as (H1 & H2 & H3 & H4 & H5 & H6 & H7). unfold exdf_run. set (clk := fun t : hist => exw_clock (List.length t)). set (hp := fun _ : N => 0).
  assert (Hh : forall j, hp j < 256) by (intros j; reflexivity). clearbody clk hp. generalize 500%nat. intros fuel.
  pose proof (C186_nothing_succeeds exdf_drive exw_a (exw_d KScsi) [] exw_ps [] clk exo_kdf hp fuel ex_dev 0x1004 exdf_prog) as T.
  destruct (trun _ ex_dev [] [] exdf_prog) as [[ss h'] rs].
  exact (proj1 (T ss h' rs H1 H2 H3 H4 Hh exo_kdf_ok H5 H6 eq_refl exdf_answers H7 eq_refl)).
Qed.
(** the run ended: no call is still polling *)
Example exdf_results : map (fun r => match r with Ok _ => 0 | Err _ => 1 | _ => 2 end) (snd exdf_run) = [0; 1; 1; 1; 1; 1; 1; 0; 1].
Proof. vm_compute. reflexivity. Qed.
Example exdf_timed : Prop_TcgEnds.timed (drive_env (win_drv exdf_drive exw_a (exw_d KScsi) []) exw_ps [] slept exo_kdf (fun _ => 0) 500).
Proof. split; [intros h t; cbn [drive_env e_clock]; rewrite slept_app; apply N.le_refl|cbn [drive_env e_fuel]; apply Nat.leb_le; reflexivity]. Qed.
