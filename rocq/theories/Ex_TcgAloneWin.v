(** C187 on a concrete Windows machine: two NVMe drives behind miniports; while the client reverts the second one, the program sends
    packets to the first one and enumerates. *)
From Verif Require Import Base M_Buffer M_Struc M_Ata M_TcgToken M_TcgCommand M_TcgDevice M_TcgSession M_TcgProgram M_DriveHandle M_Cdb M_SgDriver M_Strings M_LinuxFactory M_LinuxMachine M_TcgOnDrive
  Spec_Alone M_WinPass M_WinNvme M_WinInfo M_WinFactory M_WinEnum M_WinMachine Spec_AloneWin Spec_WinNvme Spec_TcgSession P_TcgSession
  Ex_TcgSession Ex_TcgOnDrive Ex_LinuxSystem Ex_WinInfo Ex_Challenge Ex_Conform Ex_WinConform Ex_AloneWin Spec_TcgAlone P_TcgAlone Prop_TcgAloneWin.

(** Excw_mini's answers, each computed from the requests made to the same device handle *)
Definition extw_at (hd : N) (h : xhist) : whist := flat_map (fun e => match e with XSys (WIo c) => if wc_handle c =? hd then [WIo c] else [] | _ => [] end) h.
Definition extw : xsys := {|
  x_io := fun h => match last h XClassDevs with XSys (WIo c) => s_io excw_mini (extw_at (wc_handle c) h) | _ => exi_ans 0 [] [] 0 end;
  x_open := x_open exaw; x_data := x_data exaw; x_bounce := x_bounce exaw; x_class := x_class exaw; x_devinfo := x_devinfo exaw; x_iface := x_iface exaw; x_detail := x_detail exaw;
  x_mode := x_mode exaw; x_first := x_first exaw; x_next := x_next exaw; x_names := x_names exaw; x_info := x_info exaw; x_type := x_type exaw; x_vopen := x_vopen exaw; x_text := x_text exaw |}.
Definition extw_before : list mop := [MOpen (str "\\.\PhysicalDrive0")].
Definition extw_meanwhile (t : hist) : list mop := [MOn 0 (HSec true false 1 0x1004 (N.of_nat (List.length t) :: zeros 511) 5); MVolumes 5; MEnum 5].
Definition extw_opened : mstate := mstep extw (mrun extw extw_before) (MOpen (str "\\.\PhysicalDrive1")).
Definition extw_prog (pw : bytes) : list tcall := [TRevert pw true false; TPassword].
Definition extw_outcome (pw : bytes) := trun (program_env (mreplies_on extw extw_opened 1) (MOn 1) extw_meanwhile slept exo_kdf (fun _ => 0) 500) ex_dev [] [] (extw_prog pw).
Example extw_succeeds : List.length (ms_handles extw_opened) = Datatypes.S (List.length (ms_handles (mrun extw extw_before))).
Proof. vm_compute. reflexivity. Qed.
Example extw_apart : forall t, mcalls_on 1 (extw_meanwhile t) = [].
Proof. intros t. reflexivity. Qed.
Example extw_right : snd (extw_outcome excf_psid) = [Ok tt; Ok tt].
Proof. vm_compute. reflexivity. Qed.
Example extw_wrong : snd (extw_outcome [80; 83; 73; 69]) = [Err (ETcg 1); Ok tt].
Proof. vm_compute. reflexivity. Qed.

Lemma extw_general X ops1 path meanwhile dev clock kdf heap fuel prog opened i : opened = mstep X (mrun X ops1) (MOpen path) -> i = List.length (ms_handles (mrun X ops1)) ->
  List.length (ms_handles opened) = Datatypes.S (List.length (ms_handles (mrun X ops1))) -> (forall t, mcalls_on i (meanwhile t) = []) ->
  let outcome := trun (program_env (mreplies_on X opened i) (MOn i) meanwhile clock kdf heap fuel) dev [] [] prog in
  exists S A w y, win_open_by_path S A [] path = (w, Ok y) /\ wanswers_of X S A
    /\ trun (drive_env (match f_drv y with Some (d, h, _) => win_drv S A d h | None => mno_drv end) (f_dh y) (match f_drv y with Some (_, _, c) => c | None => [] end) clock kdf heap fuel) dev [] [] prog = outcome.
Proof.
  intros -> -> L Mw. destruct (C187_windows X ops1 path meanwhile dev clock kdf heap fuel prog L Mw) as (x & S & A & w & y & cs & later & _ & _ & B & C & _ & (E & _) & _).
  exists S, A, w, y. split; [exact B|]. split; [exact C|exact E].
Qed.
Lemma extw_index : 1%nat = List.length (ms_handles (mrun extw extw_before)).
Proof. vm_compute. reflexivity. Qed.
Theorem ex_C187_windows pw : exists S A w y, win_open_by_path S A [] (str "\\.\PhysicalDrive1") = (w, Ok y) /\ wanswers_of extw S A
  /\ trun (drive_env (match f_drv y with Some (d, h, _) => win_drv S A d h | None => mno_drv end) (f_dh y) (match f_drv y with Some (_, _, c) => c | None => [] end) slept exo_kdf (fun _ => 0) 500)
       ex_dev [] [] (extw_prog pw) = extw_outcome pw.
Proof.
  unfold extw_outcome. apply (extw_general extw extw_before).
  - reflexivity.
  - exact extw_index.
  - exact extw_succeeds.
  - exact extw_apart.
Qed.
Print Assumptions ex_C187_windows.
