(** Concrete cases for C85-C90. *)
From Verif Require Import Base M_Buffer M_Ata M_TcgDevice M_DriveHandle M_Cdb M_SgDriver M_WinPass Spec_Sg Spec_WinPass P_WinPass Prop_Sg Prop_WinPass.

(** READ SECTORS EXT (24h) of one sector at LBA 0x01_0002_0304. *)
Definition exw_tf : tf :=
  {| t_dev := 0x40; t_command := 0x24; t_error := 0; t_status := 0; t_lba48 := 1;
     t_lob := {| g_feat := 0; g_nsect := 1; g_lbal := 4; g_lbam := 3; g_lbah := 2 |};
     t_hob := {| g_feat := 0; g_nsect := 0; g_lbal := 1; g_lbam := 0; g_lbah := 0 |} |}.
Example exw_wf : wf_tf exw_tf. Proof. repeat split; reflexivity. Qed.

(** A controller that only knows the buffered code and answers status 51h (ERR) with four data bytes. *)
Definition exw_buffered_only (status : N) : wsys :=
  {| s_io := fun h => match h with
                      | [_] => {| wa_err := 1; wa_out := []; wa_mem := []; wa_ret := 0 |}
                      | _ => {| wa_err := 0; wa_out := zeros 46 ++ [status; 0; 0xde; 0xad; 0xbe; 0xef]; wa_mem := []; wa_ret := 52 |}
                      end;
     s_open := fun _ => inr 7 |}.
(** 24h has neither bit 0 nor bit 3: the failed command is reported as a success (C87). *)
Example exw_read : exists h', win_ata (exw_buffered_only 0x51) [] 5 false false exw_tf [1; 2; 3; 4] 0x1000 0x2000 3 = (h', Ok (None, [0xde; 0xad; 0xbe; 0xef]))
  /\ List.length h' = 2%nat.
Proof. eexists. split; [vm_compute; reflexivity|reflexivity]. Qed.
(** ECh has bit 3: the successful command (status 50h) is reported as failed. *)
Example exw_identify : exists h' d, win_ata (exw_buffered_only 0x50) [] 5 false false win_identify_tf [1; 2; 3; 4] 0x1000 0x2000 3
  = (h', Ok (Some (EDparm "ATA Status: %02x" 0xEC []), d)).
Proof. do 2 eexists. vm_compute. reflexivity. Qed.
(** Commands only the direct request can complete (C87_fallback_useless): IDENTIFY DEVICE, TRUSTED RECEIVE/SEND, SECURITY SET PASSWORD. *)
Example exw_affected : Forall (fun c => N.testbit c 0 = true \/ N.testbit c 3 = true) [0xEC; 0x5C; 0x5D; 0x5E; 0x5F; 0xF1].
Proof. repeat (apply Forall_cons; [vm_compute; auto|]). apply Forall_nil. Qed.

(** A port that answers the direct codes, status 50h and data AAh, BBh. *)
Definition exw_direct : wsys :=
  {| s_io := fun _ => {| wa_err := 0; wa_out := zeros 46 ++ [0x50; 0]; wa_mem := [0xAA; 0xBB]; wa_ret := 48 |}; s_open := fun _ => inr 7 |}.
Example exw_direct_read : exists c, win_ata exw_direct [] 5 false true exw_tf [1; 2; 3; 4] 0x1001 0x2000 3 = ([WIo c], Ok (None, [0xAA; 0xBB; 0; 0]))
  /\ wc_target c = TBounce /\ ap_buffer (apt_decode (wc_in c)) = 0x2000 /\ ap_hob_lba (apt_decode (wc_in c)) = 1 /\ ap_lba (apt_decode (wc_in c)) = 0x020304.
Proof. eexists. split; [vm_compute; reflexivity|]. repeat split; vm_compute; reflexivity. Qed.
Example exw_open : exists h' id, win_ata_open exw_direct [] 5 0x1000 0x2000 = (h', Ok id) /\ firstn 4 id = [0xAA; 0xBB; 0; 0].
Proof. do 2 eexists. split; [vm_compute; reflexivity|reflexivity]. Qed.
Example exw_write : exists c, win_ata exw_direct [] 5 true true {| t_dev := 0; t_command := 0xF1; t_error := 0; t_status := 0; t_lba48 := 0; t_lob := regs0; t_hob := regs0 |}
    [1; 2; 3; 4] 0x1001 0x2000 3 = ([WIo c], Ok (None, [0; 0; 0; 0])) /\ wc_mem c = [0; 0; 0; 0].
Proof. eexists. split; vm_compute; reflexivity. Qed.

(** A SECURITY PROTOCOL OUT whose drive answers sense key 5. *)
Definition exw_sense : wsys :=
  {| s_io := fun _ => {| wa_err := 0; wa_out := [56; 0; 2] ++ zeros 57 ++ [0x70; 0; 5]; wa_mem := []; wa_ret := 63 |}; s_open := fun _ => inr 7 |}.
Example exw_security : exists c, win_security exw_sense [] 5 true false 1 0x1004 [9; 9] 0x1000 0x2000 3
  = ([WIo c], Ok (Some (EDparm "SCSI status, Sense key, ASC, ASCQ" 2 ([0x70; 0; 5] ++ zeros 15)), [0; 0])) /\ wc_mem c = [0; 0]
  /\ security_decode (sp_cdb (spt_decode (wc_in c))) = Some {| sc_out := true; sc_protocol := 1; sc_specific := 0x1004; sc_inc512 := false; sc_length := 2 |}.
Proof. eexists. split; [vm_compute; reflexivity|]. split; vm_compute; reflexivity. Qed.
