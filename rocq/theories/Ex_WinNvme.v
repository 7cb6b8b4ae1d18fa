(** Concrete cases for C91-C99. *)
From Verif Require Import Base M_Buffer M_Ata M_TcgDevice M_DriveHandle M_Cdb M_SgDriver M_NvmeLinux M_Strings M_WinPass M_WinNvme Spec_Sg Spec_WinPass
  Spec_WinNvme P_WinNvme Prop_Sg Prop_NvmeLinux Prop_WinPass Prop_WinNvme Prop_WinDrive.

(** A system with an NVMe miniport behind port 12: the address query answers 12, the port opens as handle 77, commands answer AAh BBh. *)
Definition exm_sys (fail : bool) : wsys :=
  {| s_io := fun h => match last h (WClose 0) with
                      | WIo c => if wc_code c =? 0x41018 then {| wa_err := 0; wa_out := [8; 0; 0; 0; 12; 0; 0; 0]; wa_mem := []; wa_ret := 8 |}
                                 else if fail then {| wa_err := 87; wa_out := []; wa_mem := []; wa_ret := 0 |}
                                 else {| wa_err := 0; wa_out := zeros 152 ++ [0xAA; 0xBB]; wa_mem := []; wa_ret := 154 |}
                      | _ => {| wa_err := 0; wa_out := []; wa_mem := []; wa_ret := 0 |} end;
     s_open := fun _ => inr 77 |}.
Example exm_open : exists c1 c2 id, nvmewin_open (exm_sys false) [] 5 = ([WIo c1; WOpen (str "\\.\SCSI12:"); WIo c2], Ok (77, id))
  /\ firstn 3 id = [0xAA; 0xBB; 0] /\ wc_handle c1 = 5 /\ wc_handle c2 = 77.
Proof. do 3 eexists. split; [vm_compute; reflexivity|]. repeat split. Qed.
Example exm_open_fails : exists c1 c2, nvmewin_open (exm_sys true) [] 5 = ([WIo c1; WOpen (str "\\.\SCSI12:"); WIo c2; WClose 77], Err (errno 87)).
Proof. do 2 eexists. vm_compute. reflexivity. Qed.
Example exm_answers_are_bytes : forall fail k, wf (wa_out (s_io (exm_sys fail) k)).
Proof.
  intros fail k. cbn [exm_sys s_io]. destruct (last k (WClose 0)) as [c| |]; try apply Forall_nil.
  destruct (wc_code c =? 0x41018); [|destruct fail; [apply Forall_nil|]]; repeat constructor.
Qed.
(** Security Send of two bytes: marked as a read, and what the driver returns overwrites the caller's buffer (C91, C96). *)
Definition exm_d : wdh := {| wd_kind := KNvmeWin; wd_handle := 5; wd_scsi := 77; wd_identity := [] |}.
Definition exm_A : waddr := {| ad_data := fun _ => 0x1000; ad_bounce := fun _ => 0x2000 |}.
Definition exm_p (d : wdh) : dh := {| p_dh := Some (win_dtype (wd_kind d)); p_info := new_info [] |}.
Example exm_send : exists h' c, security_command (win_drv (exm_sys false) exm_A exm_d []) (exm_p exm_d) [] true false 1 0x1004 [1; 2] 3 = (h', (None, [0xAA; 0xBB]))
  /\ win_replay (exm_sys false) exm_A exm_d [] h' = [WIo c] /\ mp_opcode (miniport_decode (wc_in c)) = 0x81 /\ mp_direction (miniport_decode (wc_in c)) = 2
  /\ firstn 3 (mp_data (miniport_decode (wc_in c))) = [1; 2; 0] /\ moves_to_device 0x81.
Proof. do 2 eexists. split; [vm_compute; reflexivity|]. split; [vm_compute; reflexivity|]. repeat split; vm_compute; reflexivity. Qed.
(** The second handle is never closed (C93). *)
Example exm_close : closes (win_replay (exm_sys false) exm_A exm_d [] [CClose; CIdentity]) = [5].
Proof. reflexivity. Qed.
(** Through the SCSI driver the same payload arrives as zeros, twice (C97, C98); the device answers sense key 5 to both attempts. *)
Definition exm_scsi : wdh := {| wd_kind := KScsi; wd_handle := 5; wd_scsi := 0; wd_identity := [] |}.
Definition exm_sense : wsys :=
  {| s_io := fun _ => {| wa_err := 0; wa_out := [56; 0; 2] ++ zeros 57 ++ [0x70; 0; 5]; wa_mem := []; wa_ret := 63 |}; s_open := fun _ => inr 7 |}.
Example exm_zeros : exists h' c1 c2 e, security_command (win_drv exm_sense exm_A exm_scsi []) (exm_p exm_scsi) [] true false 1 0x1004 [1; 2] 3 = (h', (Some e, [0; 0]))
  /\ win_replay exm_sense exm_A exm_scsi [] h' = [WIo c1; WIo c2] /\ payload c1 = [0; 0] /\ payload c2 = [0; 0].
Proof. do 4 eexists. split; [vm_compute; reflexivity|]. split; [vm_compute; reflexivity|]. split; vm_compute; reflexivity. Qed.
Example exm_over : over_win exm_scsi (exm_p exm_scsi) /\ over_win exm_d (exm_p exm_d) /\ addr_ok exm_A.
Proof. split; [reflexivity|]. split; [reflexivity|]. intros k. split; reflexivity. Qed.
(** A log page of 4 bytes: header 48/48 accepted, anything else refused (C95). *)
Definition exm_log (v s : N) : wsys :=
  {| s_io := fun _ => {| wa_err := 0; wa_out := le_bytes 4 v ++ le_bytes 4 s ++ zeros 40 ++ [1; 2; 3]; wa_mem := []; wa_ret := 51 |}; s_open := fun _ => inr 7 |}.
Example exm_log_ok : exists h', winnvme_log_page (exm_log 48 48) [] 5 1 2 true 4 = (h', Ok ([1; 2; 3; 0], None)).
Proof. eexists. vm_compute. reflexivity. Qed.
Example exm_log_bad : exists h' e, winnvme_log_page (exm_log 48 40) [] 5 1 2 true 4 = (h', Ok ([], Some e)).
Proof. do 2 eexists. vm_compute. reflexivity. Qed.
Example exm_identity : exists h' id, winnvme_open (exm_log 0 0) [] 5 = (h', Ok id) /\ firstn 4 id = [1; 2; 3; 0].
Proof. do 2 eexists. split; [vm_compute; reflexivity|reflexivity]. Qed.
