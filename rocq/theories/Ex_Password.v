(** Non-vacuity for C175 and C176: the factory password read from an NVMe drive, a SATA drive and a drive behind the Windows miniport, each opened from
    its path or handle; the systems are those of C125, C144 and C131 with the answer to the Get in place of the answer to the Revert. *)
From Verif Require Import Base M_Buffer M_Struc M_Ata M_TcgToken M_TcgCommand M_TcgDevice M_TcgSession M_DriveHandle M_Cdb M_SgDriver M_SgHandle M_NvmeLinux M_Strings M_LinuxInfo M_LinuxFactory
  M_LinuxSystem M_TcgOnDrive Spec_Drive Prop_Drive Spec_LinuxFactory P_LinuxFactory Prop_LinuxFactory Spec_NvmeLinux Spec_Sg P_Sg Prop_Sg
  Prop_NvmeLinux Prop_SgHandle Spec_Tcg Spec_TcgCommand Spec_TcgClient Spec_TcgSession Spec_TcgOnDrive P_TcgSession P_TcgOnDrive Spec_LinuxSystem P_LinuxSystem Prop_LinuxSystem Prop_LinuxTcg
  Spec_LinuxSata Prop_TcgOnDrive Prop_LinuxSataTcg Ex_TcgSession Ex_TcgOnDrive Ex_LinuxSystem Ex_LinuxSata.

(** the NVMe drive *)
Definition expw_nvme (h : nv_hist) : nv_ans :=
  {| na_errno := 0; na_ret := 0; na_result := 0;
     na_in := if (List.length h =? 1)%nat then exy_identify else if (List.length h =? 2)%nat then exy_level0
              else ex_packet (if (List.length (nvme_received h) =? 1)%nat then ex_sync else ex_pin) |}.
Example expw_bytes : forall k, wf (na_in (expw_nvme k)).
Proof.
  intros k. cbn [expw_nvme na_in]. destruct (_ =? 1)%nat; [unfold exy_identify; rewrite !wf_app; repeat split; auto using wf_zeros; wf_lit|].
  destruct (_ =? 2)%nat; [apply exy_level0_wf|]. apply exo_packet_wf. destruct (_ =? _)%nat; wf_lit.
Qed.
Definition expw_sys := exy_sys expw_nvme exy_refuse_sg.
Definition expw_run (S : system) (at_x : handle -> list bytes) := match snd (open_by_path (linux S) [] exy_path) with
  | Ok x => match device_of x (fun _ _ => 0), l_drv x with
    | Ok d, Some V => let '(t, r) := get_default_password (drive_env V (l_dh x) (l_calls x) slept exo_kdf (fun _ => 0) 500) d [] in
        Some (l_driver_name x, r, at_x (with_calls x (driver_calls V (l_dh x) (l_calls x) t)))
    | _, _ => None end
  | _ => None end.
Example expw_nvme_msid : expw_run expw_sys (fun x => nvme_received (skipn 2 (nvme_ioctls expw_sys (at_nvme [] exy_path 7) x))) =
  Some (str "LinuxNvmeDriver", Ok [77; 83; 73; 68],
        [frame 0 0 0x1004 (start_payload uid_AdminSP None []); frame 105 0x12345678 0x1004 (get_payload (uid8 uid_C_PIN_MSID) 3 3)]).
Proof. vm_compute. reflexivity. Qed.
(** what C175 asks of the opening: the discovery ioctl succeeded and delivered a conforming Level 0 answer *)
Example expw_opening : match snd (open_by_path (linux expw_sys) [] exy_path) with
  | Ok x => let o := nvme_ioctls expw_sys (at_nvme [] exy_path 7) x in nv_succeeded (expw_nvme o) /\ na_in (expw_nvme o) = exy_level0 /\ List.length o = 2%nat
  | _ => False end.
Proof. vm_compute. repeat split; reflexivity. Qed.

(** the SATA drive *)
Definition expw_sata (h : sg_hist) : sg_ans :=
  {| an_errno := 0; an_ret := 0; an_sense := []; an_status := Some 0;
     an_in := if (List.length h =? 1)%nat then exy_ata_identify else
       match List.length (filter sg_out h) with O => exy_level0 | Datatypes.S O => ex_packet ex_sync | _ => ex_packet ex_pin end |}.
Example expw_takes : takes_security expw_sata.
Proof. intros k c s _. repeat split; reflexivity. Qed.
Example expw_sata_bytes : forall k, wf (an_in (expw_sata k)).
Proof.
  intros k. cbn [expw_sata an_in]. destruct (_ =? 1)%nat; [wf_lit|].
  destruct (List.length _) as [|[|]]; [apply exy_level0_wf|apply exo_packet_wf; wf_lit..].
Qed.
Definition expw_sata_sys := exy_sys exy_refuse_nvme expw_sata.
Example expw_sata_msid : expw_run expw_sata_sys (fun x => sata_received (skipn 2 (sg_ioctls expw_sata_sys (at_sg [] exy_path 7) x))) =
  Some (str "LinuxScsiDriver", Ok [77; 83; 73; 68],
        [frame 0 0 0x1004 (start_payload uid_AdminSP None []); frame 105 0x12345678 0x1004 (get_payload (uid8 uid_C_PIN_MSID) 3 3)]).
Proof. vm_compute. reflexivity. Qed.
(** a drive whose answer to the Get has no fifth token: no text, and still nothing but the two frames *)
Example expw_refused : expw_run (exy_sys exy_nvme exy_refuse_sg) (fun x => nvme_received (skipn 2 (nvme_ioctls (exy_sys exy_nvme exy_refuse_sg) (at_nvme [] exy_path 7) x))) <> None
  /\ forall n r l, expw_run (exy_sys exy_nvme exy_refuse_sg) (fun x => nvme_received (skipn 2 (nvme_ioctls (exy_sys exy_nvme exy_refuse_sg) (at_nvme [] exy_path 7) x))) = Some (n, r, l) ->
     (forall text, r <> Ok text) /\ List.length l = 2%nat.
Proof.
  set (v := expw_run _ _). assert (E : exists n r l, v = Some (n, r, l) /\ (forall text, r <> Ok text) /\ List.length l = 2%nat).
  { unfold v. vm_compute. do 3 eexists. split; [reflexivity|]. split; [discriminate|reflexivity]. }
  destruct E as (n & r & l & E & A & B). rewrite E. split; [discriminate|]. intros n' r' l' X. injection X as <- <- <-. auto.
Qed.
